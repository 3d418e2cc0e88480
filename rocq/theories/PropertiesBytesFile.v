(** * C71: the bytes an application writes are the bytes it reads back, through the file

    The converters of PropertiesBytes in front of the PCM file module, the header writers and readers. *)
From Verif Require Import Prelude PreludeFacts ByteOrder ByteOrderProofs Convert ConvertProofs Float FloatFacts FloatConv FloatBits FloatValid Arrange ArrangeProofs Memory MemoryProofs PropertiesBuffers PropertiesBytes.
From Verif Require Import FileIO Reader ReaderSpec PropertiesReader Writer WriterSpec WriterHistory Codecs CodecsProofs PropertiesWriter PropertiesRoundTrip.
From Verif Require Import HeaderIO.
From Coq Require Import Lia.

(** ** Frames *)
(** A frame in the caller's memory: [ch] samples, each in the bytes of its C type; 24-bit samples are numbers of 24 bits. *)
Definition callersFrame (host : order) (t : ty) (ch : Z) (u : list Z) : Prop :=
  zlen u = userBytes t * ch /\ bytes_ok u = true /\ Forall (inBytes host t) (groups (tysize t) (Z.to_nat ch) u).
(** The samples the file module stores for it, as numbers, and the frame a caller gets for such samples. *)
Definition signedTy (t : ty) : bool := match t with TI _ => true | _ => false end.
Definition stored1 (o : order) (t : ty) (fr : list Z) : list Z := concat (map (sampleBytes o (packedSize t)) fr).
Definition fileFrame (host o : order) (t : ty) (ch : Z) (u : list Z) : list Z :=
  map (fun c => sampleOf o (signedTy t) (packedSize t) (toFile host o t c)) (groups (tysize t) (Z.to_nat ch) u).
Definition callerFrame (host o : order) (t : ty) (fr : list Z) : list Z := concat (map (fun x => toCaller host o t (sampleBytes o (packedSize t) x)) fr).

Lemma sampleBytes_of o sgn k c : length c = k -> bytes_ok c = true -> (1 <= k)%nat -> sampleBytes o k (sampleOf o sgn k c) = c.
Proof.
  intros L B K. unfold sampleBytes, sampleOf. assert (R : forall z, load o c = z -> store o k (if sgn then sN (8 * Z.of_nat k) z else z) = c).
  { intros z <-. pose proof (load_range o c B) as R. unfold zlen in R. rewrite L in R. transitivity (store o k (load o c)); [|rewrite <- L; now apply store_load].
    destruct sgn; [|reflexivity]. unfold store, be_bytes. assert (E : (sN (8 * Z.of_nat k) (load o c)) mod 2 ^ (8 * Z.of_nat k) = (load o c) mod 2 ^ (8 * Z.of_nat k)).
    { unfold sN. rewrite Zminus_mod_idemp_l. f_equal. lia. }
    assert (LE : le_bytes k (sN (8 * Z.of_nat k) (load o c)) = le_bytes k (load o c)). { apply le_bytes_mod. exact E. }
    now rewrite LE. }
  destruct o; apply R; reflexivity.
Qed.
Lemma sampleOf_fits o sgn k c : length c = k -> bytes_ok c = true -> (1 <= k)%nat -> fits sgn k (sampleOf o sgn k c).
Proof.
  intros L B K. unfold fits, sampleOf. pose proof (load_range o c B) as R. unfold zlen in R. rewrite L in R. destruct sgn.
  - apply sN_range. lia.
  - destruct o; exact R.
Qed.
Lemma groups_frames {A} k c n : forall us : list (list A), length us = n -> Forall (fun u => length u = (c * k)%nat) us -> groups k (n * c) (concat us) = concat (map (groups k c) us).
Proof.
  induction n as [|n IH]; intros us L F; destruct us as [|u us]; try discriminate; [reflexivity|]. apply Forall_cons_iff in F as [Fu F]. cbn [concat map]. replace (S n * c)%nat with (c + n * c)%nat by lia.
  rewrite groups_app by exact Fu. f_equal. apply IH; [now injection L|exact F].
Qed.
Lemma concat_map_in {X A B} (g : X -> list A) (h : A -> list B) l : concat (map h (concat (map g l))) = concat (map (fun x => concat (map h (g x))) l).
Proof. induction l as [|x l IH]; [reflexivity|]. cbn [map concat]. now rewrite map_app, concat_app, IH. Qed.
Section Frames.
Context (host o : order) (t : ty) (ch : Z) (CH : 1 <= ch).
Let k := packedSize t.
Lemma k_pos : (1 <= k)%nat. Proof. unfold k. destruct t as [[]|[]| |]; cbn; lia. Qed.
Lemma frame_cells u : callersFrame host t ch u -> isCells (tysize t) (groups (tysize t) (Z.to_nat ch) u) /\ concat (groups (tysize t) (Z.to_nat ch) u) = u /\ length u = (Z.to_nat ch * tysize t)%nat /\ length (groups (tysize t) (Z.to_nat ch) u) = Z.to_nat ch.
Proof.
  intros (L & B & _). assert (LN : length u = (Z.to_nat ch * tysize t)%nat) by (unfold zlen in L; rewrite <- userBytes_val in L; nia). destruct (cells_of _ _ _ LN B) as (A1 & A2 & A3). auto.
Qed.
Lemma stored_fileFrame u : callersFrame host t ch u -> stored1 o t (fileFrame host o t ch u) = concat (map (toFile host o t) (groups (tysize t) (Z.to_nat ch) u)).
Proof.
  intros F. destruct (frame_cells u F) as (A1 & _). unfold stored1, fileFrame. f_equal. rewrite map_map. apply map_ext_in. intros c Hc. unfold isCells in A1. rewrite Forall_forall in A1. destruct (A1 c Hc) as [Lc Bc].
  apply sampleBytes_of; [now apply toFile_len|now apply toFile_ok|apply k_pos].
Qed.
Lemma fileFrame_frame u : callersFrame host t ch u -> frameOf ch (fits (signedTy t) k) (fileFrame host o t ch u).
Proof.
  intros F. destruct (frame_cells u F) as (A1 & _ & _ & A4). split.
  - unfold fileFrame, zlen. rewrite map_length, A4. lia.
  - unfold fileFrame. apply Forall_map. eapply Forall_impl; [|exact A1]. intros c [Lc Bc]. apply sampleOf_fits; [now apply toFile_len|now apply toFile_ok|apply k_pos].
Qed.
Lemma frame_back u : callersFrame host t ch u -> callerFrame host o t (fileFrame host o t ch u) = u.
Proof.
  intros F. destruct (frame_cells u F) as (A1 & A2 & _). destruct F as (_ & _ & IB). unfold callerFrame, fileFrame. rewrite map_map. rewrite <- A2 at 2. f_equal. transitivity (map (fun c => c) (groups (tysize t) (Z.to_nat ch) u)); [|apply map_id].
  apply map_ext_in. intros c Hc. unfold isCells in A1. rewrite Forall_forall in A1, IB. destruct (A1 c Hc) as [Lc Bc]. rewrite sampleBytes_of; [|now apply toFile_len|now apply toFile_ok|apply k_pos]. apply toCaller_toFile; auto.
Qed.
Lemma frames_len us : Forall (callersFrame host t ch) us -> zlen (concat us) = zlen us * (userBytes t * ch) /\ bytes_ok (concat us) = true /\
  groups (tysize t) (Z.to_nat (zlen us * ch)) (concat us) = concat (map (groups (tysize t) (Z.to_nat ch)) us).
Proof.
  intros F. split; [|split].
  - induction F as [|u us (L & _) F IH]; [reflexivity|]. cbn [concat]. rewrite zlen_app, zlen_cons, IH, L. ring.
  - induction F as [|u us (_ & B & _) F IH]; [reflexivity|]. cbn [concat]. now apply bytes_ok_app.
  - replace (Z.to_nat (zlen us * ch)) with (length us * Z.to_nat ch)%nat by (unfold zlen; nia). apply groups_frames; [reflexivity|]. eapply Forall_impl; [|exact F]. intros u Fu. apply (frame_cells u Fu).
Qed.
Lemma frames_toFile us : Forall (callersFrame host t ch) us -> framesToFile host o t ch (zlen us) (concat us) = concat (map (fun u => stored1 o t (fileFrame host o t ch u)) us).
Proof.
  intros F. destruct (frames_len us F) as (_ & _ & G). unfold framesToFile. rewrite G, concat_map_in. f_equal. apply map_ext_in. intros u Hu. rewrite Forall_forall in F. symmetry. apply stored_fileFrame. auto.
Qed.
Lemma frames_in us : Forall (callersFrame host t ch) us -> Forall (inBytes host t) (groups (tysize t) (Z.to_nat (zlen us * ch)) (concat us)).
Proof.
  intros F. destruct (frames_len us F) as (_ & _ & ->). apply Forall_concat. apply Forall_map. eapply Forall_impl; [|exact F]. intros u (_ & _ & IB). exact IB.
Qed.
Lemma stored1_cells fr : isCells k (map (sampleBytes o k) fr).
Proof.
  apply Forall_map, Forall_forall. intros x _. split; [pose proof (sampleBytes_len o k x) as L; unfold zlen in L; lia|]. unfold sampleBytes, be_bytes. destruct o; [rewrite bytes_ok_rev|]; apply le_bytes_ok.
Qed.
Lemma frames_delivered frs : Forall (fun fr => zlen fr = ch) frs -> let d := concat (map (stored1 o t) frs) in
  zlen d = zlen frs * (fileBytes t * ch) /\ bytes_ok d = true /\ framesToCaller host o t ch (zlen frs) d = concat (map (callerFrame host o t) frs).
Proof.
  intros F d. assert (E : d = concat (map (sampleBytes o k) (concat frs))). { unfold d, stored1. fold k. rewrite <- (map_id frs) at 2. now rewrite concat_map_in. }
  assert (LC : zlen (concat frs) = zlen frs * ch). { clear -F. induction F as [|fr frs L F IH]; [reflexivity|]. cbn [concat]. rewrite zlen_app, zlen_cons, IH, L. ring. }
  pose proof (stored1_cells (concat frs)) as IC. split; [|split].
  - rewrite E, (zlen_concat_cells k) by (apply isCells_len; exact IC). rewrite zlen_map, LC. unfold k. rewrite fileBytes_val. ring.
  - rewrite E. eapply bytes_ok_concat. exact IC.
  - unfold framesToCaller. rewrite E. fold k. replace (Z.to_nat (zlen frs * ch)) with (length (map (sampleBytes o k) (concat frs))) by (rewrite map_length; unfold zlen in *; lia).
    rewrite <- (app_nil_r (concat (map (sampleBytes o k) (concat frs)))), groups_concat by (apply isCells_len; exact IC). rewrite map_map. unfold callerFrame. rewrite <- (map_id frs) at 1. rewrite concat_map_in. reflexivity.
Qed.
End Frames.

(** * The converters *)

(** What the caller writes reaches the file module, and what the file module delivers reaches the caller: a piece of at most
    1024 frames, and a whole call of afReadFrames. *)
Theorem C71_converters_carry_bytes :
  forall wrapv host f v t, samePCM host f v t -> let o := byteOrder f in let ch := channelCount f in
  exists msW msR, arrange wrapv host false v f None = Ok (Some msW) /\ arrange wrapv host true f v None = Ok (Some msR) /\
    (forall us rest bufs lastb packet own,
      Forall (callersFrame host t ch) us -> zlen us <= 1024 -> bytes_ok rest = true ->
      length bufs = pred (length msW) -> Forall (fun b => writeCapacity msW v packet own <= zlen b) (lastb :: bufs) ->
      pushMem host msW v (zlen us) (concat us ++ rest) bufs lastb (zlen us * (fileBytes t * ch)) = Ok (concat (map (fun u => stored1 o t (fileFrame host o t ch u)) us))) /\
    (forall (pulls : list (list (list Z) * list (list Z))) samples packet own,
      Forall (fun p => let '(frs, bufs) := p in zlen frs <= 1024 /\ Forall (fun fr => zlen fr = ch) frs /\
        length bufs = length msR /\ Forall (fun b => readCapacity msR f packet own <= zlen b) bufs) pulls ->
      let frames := concat (map fst pulls) in
      zlen frames * (userBytes t * ch) <= zlen samples ->
      readMem host msR f v (map (fun p => (zlen (fst p), concat (map (stored1 o t) (fst p)), snd p)) pulls) 0 samples =
        Ok (concat (map (callerFrame host o t) frames) ++ zskipn (zlen frames * (userBytes t * ch)) samples)) /\
    (forall u, callersFrame host t ch u -> callerFrame host o t (fileFrame host o t ch u) = u).
Proof.
  intros wrapv host f v t S o ch. destruct (chains wrapv host f v t S) as [A1 A2]. pose proof (p_chan _ _ _ _ S) as C. fold ch in C. fold o in A1, A2.
  exists (writeChain host o t), (readChain host o t). split; [exact A2|]. split; [exact A1|]. split; [|split].
  - intros us rest bufs lastb packet own F N BR LB CB. destruct (frames_len host t ch ltac:(lia) us F) as (L & B & _). rewrite <- frames_toFile by (auto; lia).
    pose proof (zlen_nonneg us). apply (push_bytes wrapv host f v t S (zlen us) (concat us) rest bufs lastb packet own); [lia|now apply bytes_ok_app|exact L|apply frames_in; [lia|exact F]|exact LB|exact CB].
  - intros pulls samples packet own P frames Z. destruct (samePCM_user _ _ _ _ S) as (FV & RV & OV & CV & PV).
    assert (EB : bytesPerFrame true v = userBytes t * ch). { rewrite (user_frame v t FV RV); rewrite CV; auto. }
    set (F := userBytes t * ch) in *. assert (F0 : 0 <= F) by (unfold F; destruct t as [[]|[]| |]; cbn [userBytes]; lia).
    assert (G : forall (pulls : list (list (list BinNums.Z) * list (list BinNums.Z))) pre user vf, Forall (fun p => let '(frs, bufs) := p in zlen frs <= 1024 /\ Forall (fun fr => zlen fr = ch) frs /\
        length bufs = length (readChain host o t) /\ Forall (fun b => readCapacity (readChain host o t) f packet own <= zlen b) bufs) pulls ->
        0 <= vf -> zlen pre = F * vf -> zlen (concat (map fst pulls)) * F <= zlen user ->
        readMem host (readChain host o t) f v (map (fun p => (zlen (fst p), concat (map (stored1 o t) (fst p)), snd p)) pulls) vf (pre ++ user) =
          Ok (pre ++ concat (map (callerFrame host o t) (concat (map fst pulls))) ++ zskipn (zlen (concat (map fst pulls)) * F) user)).
    { clear P Z pulls frames samples. induction pulls as [|[frs bufs] ps IH]; intros pre user vf P V0 V Z.
      - cbn [map concat readMem app]. change (zlen (@nil (list BinNums.Z))) with 0. rewrite zskipn_0 by lia. reflexivity.
      - apply Forall_cons_iff in P as [(N & FL & LB & CB) P]. cbn [map fst snd concat] in *. rewrite zlen_app in *. pose proof (zlen_nonneg frs). pose proof (zlen_nonneg (concat (map fst ps))). pose proof (zlen_nonneg user).
        destruct (frames_delivered host o t ch ltac:(lia) frs FL) as (D1 & D2 & D3). cbn [readMem]. rewrite EB, zlen_app.
        replace ((0 <=? F * vf) && (F * vf <=? zlen pre + zlen user)) with true by (symmetry; apply andb_true_iff; split; [apply Z.leb_le; apply Z.mul_nonneg_nonneg; lia|lia]).
        rewrite <- V. rewrite zskipn_exact, zfirstn_exact.
        assert (ZU : zlen frs * F <= zlen user) by nia. pose proof (pull_bytes wrapv host f v t S (zlen frs) (concat (map (stored1 o t) frs)) bufs user packet own ltac:(lia) D2 D1 LB CB ZU) as PB. fold o ch in PB. rewrite PB. cbn [rbind]. clear PB.
        rewrite D3. fold F. assert (LCF : zlen (concat (map (callerFrame host o t) frs)) = zlen frs * F). { rewrite <- D3. apply (toCaller_frames_len host f v t S); auto. }
        rewrite app_assoc. rewrite (IH (pre ++ concat (map (callerFrame host o t) frs)) (zskipn (zlen frs * F) user) (vf + zlen frs)); auto.
        + f_equal. rewrite map_app, concat_app, <- !app_assoc. do 3 f_equal. rewrite zskipn_zskipn by (apply Z.mul_nonneg_nonneg; lia). f_equal. ring.
        + lia.
        + rewrite zlen_app, V, LCF. ring.
        + rewrite zlen_skipn by (apply Z.mul_nonneg_nonneg; lia). lia. }
    apply (G pulls [] samples 0 P); [lia|change (zlen (@nil BinNums.Z)) with 0; ring|exact Z].
  - intros u Fu. apply frame_back; auto. lia.
Qed.
Print Assumptions C71_converters_carry_bytes.

(** * Files *)
From Verif Require NeXT AVR IFF IRCAM VOC SampleVision CAF NIST WAVE AIFF FileRoundTrip PropertiesNeXT PropertiesAVR PropertiesIFF PropertiesIRCAM PropertiesVOC PropertiesSampleVision PropertiesCAF PropertiesNIST PropertiesWAVE PropertiesAIFF.

(** The track's format as the converters see it, from the header's. *)
Definition trackFormat {R} (fm : formatOf R) (t : ty) : Arrange.format :=
  {| sampleFormat := match f_sf fm with TwosComp => TWOSCOMP | Unsigned => UNSIGNED | Float => FLOAT | Double => DOUBLE end; sampleWidth := f_width fm;
     channelCount := f_chan fm; byteOrder := f_order fm; compressed := false; pcm := fullScale t |}.
Lemma track_facts {R} (fm : formatOf R) host v t : samePCM host (trackFormat fm t) v t ->
  signedTy t = (match f_sf fm with TwosComp => true | _ => false end) /\
  Z.of_nat (packedSize t) = (match f_sf fm with Float => 4 | Double => 8 | _ => Z.quot (f_width fm + 7) 8 end) /\ 1 <= f_chan fm.
Proof.
  intros S. pose proof (p_file _ _ _ _ S) as F. pose proof (p_chan _ _ _ _ S) as C. cbn [trackFormat channelCount] in C. destruct (fmtTy_code _ _ F) as [G U]. destruct (fmt_bps _ _ F) as [B _]. split; [|split; [|lia]].
  - unfold isUnsigned in U. unfold getFormatCode in G. cbn [trackFormat sampleFormat] in *. destruct (f_sf fm), t; cbn in *; try reflexivity; try discriminate; destruct (bytesPerSample false _) as [|[[[]|[]|]|[[]|[]|]|]|]; discriminate.
  - rewrite <- B. unfold bytesPerSample. cbn [trackFormat sampleFormat sampleWidth compressed]. destruct (f_sf fm); try reflexivity; rewrite andb_false_r; reflexivity.
Qed.
Lemma written_frames host o t ch (ops : list (@wop (list Z))) : 1 <= ch -> Forall (callersFrame host t ch) (written ops) ->
  Forall (fun u => frameOf ch (fits (signedTy t) (packedSize t)) (fileFrame host o t ch u)) (written ops) /\ map (fun u => callerFrame host o t (fileFrame host o t ch u)) (written ops) = written ops.
Proof.
  intros C F. split; [eapply Forall_impl; [|exact F]; intros u Fu; apply fileFrame_frame; auto|]. transitivity (map (fun u => u) (written ops)); [|apply map_id]. apply map_ext_in. intros u Hu. rewrite Forall_forall in F. apply frame_back; auto.
Qed.

(** In each theorem: [ops] are the caller's calls, afWriteFrames with the bytes of each frame and afSyncFile; the frames
    read back are bytes in the caller's memory. *)
Theorem C71_next_bytes_partial :
  forall (B : Build) host v t sf n ch rate, PropertiesNeXT.nextPCM sf n -> 0 <= rate < 2 ^ 32 ->
    let bpf := Z.of_nat n * ch in let fm := mkFmt rate sf (8 * Z.of_nat n) ch BigEndian CNone 1 bpf in
    samePCM host (trackFormat fm t) v t ->
  forall junk cap (ops : list wop), zlen junk = ch -> spaced false (ops ++ [Sync]) ->
    Forall (callersFrame host t ch) (written ops) -> 28 + bpf * zlen (written ops) < 2 ^ 31 -> written ops <> [] ->
    exists st, wrun (pcmW BigEndian n ch) (fileFrame host BigEndian t ch) junk true (NeXT.nextUpdate fm) (openWrite (pcmW BigEndian n ch) (NeXT.nextInit fm) NeXT.nextFirst cap tt) (ops ++ [Sync]) = Ok st /\
      FileRoundTrip.reopens B (NeXT.nextRead host) (fbytes (ws_file st)) (pcmR BigEndian (signedTy t) n ch) (callerFrame host BigEndian t) fm 28 (zlen (written ops)) (written ops).
Proof.
  intros B host v t sf n ch rate P R bpf fm S junk cap ops J SP F L NE. destruct (track_facts fm host v t S) as (E1 & E2 & E3). cbn [f_sf f_width f_chan fm] in E1, E2, E3.
  assert (EN : n = packedSize t) by (destruct P; try lia; rewrite Z.quot_div_nonneg in E2 by lia; lia). 
  destruct (written_frames host BigEndian t ch ops E3 F) as [W1 W2]. rewrite <- EN in W1.
  destruct (PropertiesNeXT.C28_next_pcm_roundtrip_partial B host sf n ch rate P ltac:(lia) R _ _ (fileFrame host BigEndian t ch) (callerFrame host BigEndian t) junk cap ops J SP) as (st & R1 & R2); auto.
  - rewrite <- E1. exact W1.
  - exists st. split; [exact R1|]. rewrite W2 in R2. rewrite <- E1 in R2. exact R2.
Qed.
Print Assumptions C71_next_bytes_partial.

Theorem C71_avr_bytes_partial :
  forall (B : Build) host v t sf n ch rate name, PropertiesAVR.avrPCM sf n -> ch = 1 \/ ch = 2 -> 0 <= rate < 2 ^ 24 -> zlen name = 8 ->
    let bpf := Z.of_nat n * ch in let fm := mkFmt rate sf (8 * Z.of_nat n) ch BigEndian CNone 1 bpf in
    samePCM host (trackFormat fm t) v t ->
  forall junk cap (ops : list wop), zlen junk = ch -> spaced false (ops ++ [Sync]) ->
    Forall (callersFrame host t ch) (written ops) -> 128 + bpf * zlen (written ops) < 2 ^ 31 ->
    exists st, wrun (pcmW BigEndian n ch) (fileFrame host BigEndian t ch) junk true AVR.avrUpdate (openWrite (pcmW BigEndian n ch) (AVR.avrInit name fm) AVR.avrFirst cap tt) (ops ++ [Sync]) = Ok st /\
      FileRoundTrip.reopens B AVR.avrRead (fbytes (ws_file st)) (pcmR BigEndian (signedTy t) n ch) (callerFrame host BigEndian t) fm 128 (zlen (written ops)) (written ops).
Proof.
  intros B host v t sf n ch rate name P C R NM bpf fm S junk cap ops J SP F L. destruct (track_facts fm host v t S) as (E1 & E2 & E3). cbn [f_sf f_width f_chan fm] in E1, E2, E3.
  assert (EN : n = packedSize t) by (destruct P; try lia; rewrite Z.quot_div_nonneg in E2 by lia; lia).
  destruct (written_frames host BigEndian t ch ops E3 F) as [W1 W2]. rewrite <- EN in W1.
  destruct (PropertiesAVR.C29_avr_roundtrip_partial B sf n ch rate name P C R NM _ _ (fileFrame host BigEndian t ch) (callerFrame host BigEndian t) junk cap ops J SP) as (st & R1 & R2); auto.
  - rewrite <- E1. exact W1.
  - exists st. split; [exact R1|]. rewrite W2 in R2. rewrite <- E1 in R2. exact R2.
Qed.
Print Assumptions C71_avr_bytes_partial.

Theorem C71_ircam_bytes_partial :
  forall (B : Build) host v t sf n ch (r : spec_float), PropertiesIRCAM.ircamPCM sf n -> PropertiesIRCAM.ircamChannels ch -> validF r = true ->
    let bpf := Z.of_nat n * ch in let fm := mkFmt (toDouble r) sf (8 * Z.of_nat n) ch host CNone 1 bpf in
    samePCM host (trackFormat fm t) v t ->
  forall junk cap (ops : list wop), zlen junk = ch -> spaced false (ops ++ [Sync]) ->
    Forall (callersFrame host t ch) (written ops) -> 1024 + bpf * zlen (written ops) < 2 ^ 31 ->
    exists hdr st, IRCAM.ircamInit host fm = Some hdr /\
      wrun (pcmW host n ch) (fileFrame host host t ch) junk true IRCAM.ircamUpdate (openWrite (pcmW host n ch) hdr IRCAM.ircamFirst cap tt) (ops ++ [Sync]) = Ok st /\
      FileRoundTrip.reopens B (IRCAM.ircamRead host) (fbytes (ws_file st)) (pcmR host (signedTy t) n ch) (callerFrame host host t) fm 1024 (zlen (written ops)) (written ops).
Proof.
  intros B host v t sf n ch r P C V bpf fm S junk cap ops J SP F L. destruct (track_facts fm host v t S) as (E1 & E2 & E3). cbn [f_sf f_width f_chan fm] in E1, E2, E3.
  assert (EN : n = packedSize t) by (destruct P; try lia; rewrite Z.quot_div_nonneg in E2 by lia; lia).
  destruct (written_frames host host t ch ops E3 F) as [W1 W2]. rewrite <- EN in W1.
  destruct (PropertiesIRCAM.C31_ircam_pcm_roundtrip_partial B host sf n ch r P C V _ _ (fileFrame host host t ch) (callerFrame host host t) junk cap ops J SP) as (hdr & st & R0 & R1 & R2); auto.
  - rewrite <- E1. exact W1.
  - exists hdr, st. split; [exact R0|]. split; [exact R1|]. rewrite W2 in R2. rewrite <- E1 in R2. exact R2.
Qed.
Print Assumptions C71_ircam_bytes_partial.

Theorem C71_voc_bytes_partial :
  forall (B : Build) host v t sf n ch rate, PropertiesVOC.vocPCM sf n -> 0 < ch < 256 -> 0 <= rate < 2 ^ 32 ->
    let bpf := Z.of_nat n * ch in let fm := mkFmt rate sf (8 * Z.of_nat n) ch LittleEndian CNone 1 bpf in
    samePCM host (trackFormat fm t) v t ->
  forall junk cap (ops : list wop), zlen junk = ch -> spaced false (ops ++ [Sync]) ->
    Forall (callersFrame host t ch) (written ops) -> bpf * zlen (written ops) + 12 < 2 ^ 24 ->
    exists st, wrun (pcmW LittleEndian n ch) (fileFrame host LittleEndian t ch) junk true (VOC.vocUpdate fm) (openWrite (pcmW LittleEndian n ch) (VOC.vocInit fm) VOC.vocFirst cap tt) (ops ++ [Sync]) = Ok st /\
      PropertiesVOC.vocReopens B host (fbytes (ws_file st)) (pcmR LittleEndian (signedTy t) n ch) (callerFrame host LittleEndian t) fm (zlen (written ops)) (written ops).
Proof.
  intros B host v t sf n ch rate P C R bpf fm S junk cap ops J SP F L. destruct (track_facts fm host v t S) as (E1 & E2 & E3). cbn [f_sf f_width f_chan fm] in E1, E2, E3.
  assert (EN : n = packedSize t) by (destruct P; try lia; rewrite Z.quot_div_nonneg in E2 by lia; lia).
  destruct (written_frames host LittleEndian t ch ops E3 F) as [W1 W2]. rewrite <- EN in W1.
  destruct (PropertiesVOC.C32_voc_pcm_roundtrip_partial B host sf n ch rate P C R _ _ (fileFrame host LittleEndian t ch) (callerFrame host LittleEndian t) junk cap ops J SP) as (_ & st & R1 & R2); auto.
  - rewrite <- E1. exact W1.
  - exists st. split; [exact R1|]. rewrite W2 in R2. rewrite <- E1 in R2. exact R2.
Qed.
Print Assumptions C71_voc_bytes_partial.

Theorem C71_nist_bytes_partial :
  forall (B : Build) (host o : order) v t w ch rate, 9 <= w <= 16 -> 2 * ch < 2 ^ 31 -> 0 < rate < 2 ^ 31 ->
    let fm := mkFmt rate TwosComp w ch o CNone 1 (2 * ch) in
    samePCM host (trackFormat fm t) v t ->
  forall junk cap (ops : list wop), zlen junk = ch -> spaced false (ops ++ [Sync]) ->
    Forall (callersFrame host t ch) (written ops) -> 1024 + 2 * ch * zlen (written ops) < 2 ^ 31 ->
    exists st, wrun (pcmW o 2 ch) (fileFrame host o t ch) junk true (NIST.nistUpdate fm) (openWrite (pcmW o 2 ch) (NIST.nistInit fm) NIST.nistFirst cap tt) (ops ++ [Sync]) = Ok st /\
      NIST.nistRecognize (ws_file st) = true /\
      FileRoundTrip.reopens B (NIST.nistRead host) (fbytes (ws_file st)) (pcmR o true 2 ch) (callerFrame host o t) fm 1024 (zlen (written ops)) (written ops).
Proof.
  intros B host o v t w ch rate W C R fm S junk cap ops J SP F L. destruct (track_facts fm host v t S) as (E1 & E2 & E3). cbn [f_sf f_width f_chan fm] in E1, E2, E3.
  assert (EN : 2%nat = packedSize t) by (rewrite Z.quot_div_nonneg in E2 by lia; lia).
  destruct (written_frames host o t ch ops E3 F) as [W1 W2]. rewrite <- EN, E1 in W1.
  destruct (PropertiesNIST.C34_nist_pcm_roundtrip_partial B host o w ch rate W ltac:(lia) C R _ _ (fileFrame host o t ch) (callerFrame host o t) junk cap ops J SP W1 L) as (_ & st & R1 & RR & R2).
  exists st. split; [exact R1|]. split; [exact RR|]. rewrite W2 in R2. exact R2.
Qed.
Print Assumptions C71_nist_bytes_partial.

Theorem C71_caf_bytes_partial :
  forall (B : Build) host rate o fm sgn n v t, PropertiesCAF.cafPCM rate o fm sgn n -> validD rate = true -> samePCM host (trackFormat fm t) v t ->
  forall junk cap (ops : list wop), let ch := f_chan fm in let bpf := Z.of_nat n * ch in zlen junk = ch -> spaced false (ops ++ [Sync]) ->
    Forall (callersFrame host t ch) (written ops) -> 68 + bpf * zlen (written ops) < 2 ^ 31 ->
    exists st, wrun (pcmW o n ch) (fileFrame host o t ch) junk true CAF.cafUpdate (openWrite (pcmW o n ch) (CAF.cafInit fm) CAF.cafFirst cap tt) (ops ++ [Sync]) = Ok st /\
      PropertiesCAF.cafReopens B host (fbytes (ws_file st)) (pcmR o sgn n ch) (callerFrame host o t) fm (zlen (written ops)) (written ops).
Proof.
  intros B host rate o fm sgn n v t P V S junk cap ops ch bpf J SP F L. destruct (track_facts fm host v t S) as (E1 & E2 & E3). fold ch in E3.
  assert (EN : n = packedSize t /\ sgn = signedTy t) by (rewrite E1; destruct P as [w c -> -> W1 W2 H1 H2|c -> -> -> H1 H2|c -> -> -> H1 H2]; cbn [f_sf f_width] in *; (split; [|reflexivity]); try lia; rewrite Z.quot_div_nonneg in E2 by lia; lia).
  destruct EN as [EN ES]. destruct (written_frames host o t ch ops E3 F) as [W1 W2]. rewrite <- EN, <- ES in W1.
  destruct (PropertiesCAF.C37_caf_pcm_roundtrip_partial B host rate o fm sgn n P V _ _ (fileFrame host o t ch) (callerFrame host o t) junk cap ops J SP W1 L) as (st & R1 & R2).
  exists st. split; [exact R1|]. rewrite W2 in R2. exact R2.
Qed.
Print Assumptions C71_caf_bytes_partial.

Theorem C71_aiff_bytes_partial :
  forall (B : Build) host aifc s m e fm sgn n v t, let rate := S754_finite s m e in validD rate = true -> PropertiesAIFF.aiffPCM host rate aifc fm sgn n -> samePCM host (trackFormat fm t) v t ->
  forall x0 (xs : wtrack -> AIFF.aextra), PropertiesAIFF.validExtra x0 -> (forall t, PropertiesAIFF.validExtra (xs t) /\ PropertiesAIFF.sameLayout x0 (xs t)) ->
  forall junk cap (ops : list wop), let ch := f_chan fm in let bpf := Z.of_nat n * ch in let first := AIFF.aiffFirst aifc fm x0 in let total := zlen (written ops) in
    zlen junk = ch -> spaced false (ops ++ [Sync]) -> Forall (callersFrame host t ch) (written ops) -> first + bpf * total < 2 ^ 31 ->
    exists st, wrun (pcmW BigEndian n ch) (fileFrame host BigEndian t ch) junk true (fun f t => AIFF.aiffUpdate aifc fm (xs t) f t)
        (openWrite (pcmW BigEndian n ch) (AIFF.aiffInit aifc fm x0) first cap tt) (ops ++ [Sync]) = Ok st /\
      PropertiesAIFF.aiffReopens B aifc host (fbytes (ws_file st)) (pcmR BigEndian sgn n ch) (callerFrame host BigEndian t) fm (xs (ws_track st)) first (bpf * total) total (written ops).
Proof.
  intros B host aifc s m e fm sgn n v t rate V P S x0 xs X1 X2 junk cap ops ch bpf first total J SP F L. destruct (track_facts fm host v t S) as (E1 & E2 & E3). fold ch in E3.
  assert (EN : n = packedSize t /\ sgn = signedTy t) by (rewrite E1; destruct P as [w c -> -> W1 W2 H1|c _ -> -> -> H1|c _ -> -> -> H1]; cbn [f_sf f_width] in *; (split; [|reflexivity]); try lia; rewrite Z.quot_div_nonneg in E2 by lia; lia).
  destruct EN as [EN ES]. destruct (written_frames host BigEndian t ch ops E3 F) as [W1 W2]. rewrite <- EN, <- ES in W1.
  destruct (PropertiesAIFF.C36_aiff_pcm_roundtrip_partial B host aifc s m e fm sgn n V P x0 xs X1 X2 _ _ (fileFrame host BigEndian t ch) (callerFrame host BigEndian t) junk cap ops J SP W1 L) as (st & R1 & R2).
  exists st. split; [exact R1|]. rewrite W2 in R2. exact R2.
Qed.
Print Assumptions C71_aiff_bytes_partial.

Theorem C71_wave_bytes_partial :
  forall (B : Build) host fm sgn n v t, PropertiesWAVE.wavePCM fm sgn n -> samePCM host (trackFormat fm t) v t ->
  forall x0 (xs : wtrack -> WAVE.wextra), PropertiesWAVE.validExtra x0 -> (forall t, PropertiesWAVE.validExtra (xs t) /\ PropertiesWAVE.sameLayout x0 (xs t)) ->
  exists fb, WAVE.fmtBytes fm = Ok fb /\
  forall junk cap (ops : list wop), let ch := f_chan fm in let bpf := Z.of_nat n * ch in let first := WAVE.waveFirst fb fm x0 in let total := zlen (written ops) in
    zlen junk = ch -> spaced false (ops ++ [Sync]) -> Forall (callersFrame host t ch) (written ops) -> first + bpf * total < 2 ^ 31 ->
    exists st, wrun (pcmW LittleEndian n ch) (fileFrame host LittleEndian t ch) junk true (fun f t => WAVE.waveUpdate fb fm x0 (xs t) f t)
        (openWrite (pcmW LittleEndian n ch) (WAVE.waveInit fb fm x0) first cap tt) (ops ++ [Sync]) = Ok st /\
      PropertiesWAVE.waveReopens B host (fbytes (ws_file st)) (pcmR LittleEndian sgn n ch) (callerFrame host LittleEndian t) fm (xs (ws_track st)) first (bpf * total) total (written ops).
Proof.
  intros B host fm sgn n v t P S x0 xs X1 X2. destruct (PropertiesWAVE.C35_wave_pcm_roundtrip_partial B host fm sgn n P x0 xs X1 X2) as (fb & FB & H). exists fb. split; [exact FB|].
  intros junk cap ops ch bpf first total J SP F L. destruct (track_facts fm host v t S) as (E1 & E2 & E3). fold ch in E3.
  assert (EN : n = packedSize t /\ sgn = signedTy t).
  { rewrite E1; destruct P as [c rate m -> -> W1 W2 H1|c rate -> -> -> H1|c rate -> -> -> H1]; cbn [f_sf f_width] in *; [|split; [lia|reflexivity]|split; [lia|reflexivity]].
    unfold m in *. destruct (Z.of_nat n =? 1); cbn [negb]; (split; [|reflexivity]); rewrite Z.quot_div_nonneg in E2 by lia; lia. }
  destruct EN as [EN ES]. destruct (written_frames host LittleEndian t ch ops E3 F) as [W1 W2]. rewrite <- EN, <- ES in W1.
  destruct (H _ _ (fileFrame host LittleEndian t ch) (callerFrame host LittleEndian t) junk cap ops J SP W1 L) as (st & R1 & R2).
  exists st. split; [exact R1|]. rewrite W2 in R2. exact R2.
Qed.
Print Assumptions C71_wave_bytes_partial.

Theorem C71_iff_bytes_partial :
  forall (B : Build) host v rate, 0 <= rate < 2 ^ 16 -> let t := TI kInt8 in
    samePCM host (trackFormat (mkFmt rate TwosComp 8 1 BigEndian CNone 1 1) t) v t ->
  forall ms0 (mss : wtrack -> list (Z * list Z)), (forall t, PropertiesIFF.iffTypes (mss t) /\ PropertiesIFF.sameSizes ms0 (mss t)) ->
  forall junk cap (ops : list wop), let first := IFF.iffFirst rate ms0 in let total := zlen (written ops) in
    zlen junk = 1 -> spaced false (ops ++ [Sync]) -> Forall (callersFrame host t 1) (written ops) -> first + total < 2 ^ 31 ->
    exists st, wrun (pcmW BigEndian 1 1) (fileFrame host BigEndian t 1) junk true (fun f t => IFF.iffUpdate rate (mss t) f t)
        (openWrite (pcmW BigEndian 1 1) (IFF.iffInit rate ms0) first cap tt) (ops ++ [Sync]) = Ok st /\
      PropertiesIFF.iffReopens B (fbytes (ws_file st)) (pcmR BigEndian true 1 1) (callerFrame host BigEndian t) rate (mss (ws_track st)) first total (written ops).
Proof.
  intros B host v rate R t S ms0 mss M junk cap ops first total J SP F L. destruct (written_frames host BigEndian t 1 ops ltac:(lia) F) as [W1 W2].
  destruct (PropertiesIFF.C30_iff_roundtrip_partial B rate R ms0 mss M _ _ (fileFrame host BigEndian t 1) (callerFrame host BigEndian t) junk cap ops J SP W1 L) as (st & R1 & R2).
  exists st. split; [exact R1|]. rewrite W2 in R2. exact R2.
Qed.
Print Assumptions C71_iff_bytes_partial.

Theorem C71_samplevision_bytes_partial :
  forall (B : Build) host v rate, 0 <= rate < 2 ^ 32 -> let t := TI kInt16 in let fm := mkFmt rate TwosComp 16 1 LittleEndian CNone 1 2 in
    samePCM host (trackFormat fm t) v t ->
  forall junk cap (ops : list wop), let total := zlen (written ops) in
    zlen junk = 1 -> spaced false (ops ++ [Sync]) -> Forall (callersFrame host t 1) (written ops) -> 116 + 2 * total < 2 ^ 31 ->
    exists st f', wrun (pcmW LittleEndian 2 1) (fileFrame host LittleEndian t 1) junk true (SampleVision.smpUpdate rate) (openWrite (pcmW LittleEndian 2 1) SampleVision.smpInit SampleVision.smpFirst cap tt) (ops ++ [Sync]) = Ok st /\
      SampleVision.smpRead (mkFile (fbytes (ws_file st)) 0) = Ok (Some ((mkParsed fm 116 (2 * total) total, [(203, [32]); (210, [32])]), f')) /\
      readsAs B (pcmR LittleEndian true 2 1) (callerFrame host LittleEndian t) (fbytes (ws_file st)) 116 total (written ops).
Proof.
  intros B host v rate R t fm S junk cap ops total J SP F L. destruct (written_frames host LittleEndian t 1 ops ltac:(lia) F) as [W1 W2].
  destruct (PropertiesSampleVision.C33_samplevision_roundtrip_partial B rate R _ _ (fileFrame host LittleEndian t 1) (callerFrame host LittleEndian t) junk cap ops J SP W1 L) as (st & f' & R1 & R2 & R3).
  exists st, f'. split; [exact R1|]. split; [exact R2|]. rewrite W2 in R3. exact R3.
Qed.
Print Assumptions C71_samplevision_bytes_partial.

(** ** A concrete case: a 24-bit big-endian stereo file on a little-endian machine; a float file with a NaN. *)
Definition ex24 := mkFmt 44100 TwosComp 24 2 BigEndian CNone 1 6.
Definition ex24V : Arrange.format := {| sampleFormat := TWOSCOMP; sampleWidth := 24; channelCount := 2; byteOrder := LittleEndian; compressed := false; pcm := signedMapping kInt24 |}.
Definition exU1 : list Z := [1; 2; 3; 0; 254; 255; 255; 255].
Definition exU2 : list Z := [0; 0; 128; 255; 255; 255; 127; 0].
Ltac samePCM_tac := constructor; try reflexivity; try (cbn; lia); discriminate.
Ltac frame_tac := split; [reflexivity|]; split; [reflexivity|]; repeat constructor; (reflexivity || discriminate).
Example C71_satisfiable :
  samePCM LittleEndian (trackFormat ex24 (TI kInt24)) ex24V (TI kInt24) /\ Forall (callersFrame LittleEndian (TI kInt24) 2) [exU1; exU2] /\
  forall B : Build, exists st f', wrun (pcmW BigEndian 3 2) (fileFrame LittleEndian BigEndian (TI kInt24) 2) [0; 0] true (NeXT.nextUpdate ex24) (openWrite (pcmW BigEndian 3 2) (NeXT.nextInit ex24) NeXT.nextFirst 1024 tt) [Write [exU1]; Sync; Write [exU2]; Sync] = Ok st /\
    zskipn 28 (fbytes (ws_file st)) = [3; 2; 1; 255; 255; 254; 128; 0; 0; 127; 255; 255] /\
    NeXT.nextRead LittleEndian (mkFile (fbytes (ws_file st)) 0) = Ok (Some (mkParsed ex24 28 12 2, f')) /\
    map (callerFrame LittleEndian BigEndian (TI kInt24)) [[197121; -2]; [-8388608; 8388607]] = [exU1; exU2].
Proof.
  split; [samePCM_tac|]. split; [constructor; [frame_tac|constructor; [frame_tac|constructor]]|].
  intros B. eexists. eexists. split; [vm_compute; reflexivity|]. split; [vm_compute; reflexivity|]. split; vm_compute; reflexivity.
Qed.
Definition exFl : Arrange.format := {| sampleFormat := FLOAT; sampleWidth := 32; channelCount := 1; byteOrder := BigEndian; compressed := false; pcm := floatMapping |}.
Definition exFlV : Arrange.format := {| sampleFormat := FLOAT; sampleWidth := 32; channelCount := 1; byteOrder := LittleEndian; compressed := false; pcm := floatMapping |}.
Example C71_nan_satisfiable :
  samePCM LittleEndian exFl exFlV TF /\ callersFrame LittleEndian TF 1 [1; 2; 192; 127] /\
  pushMem LittleEndian [MSwap] exFlV 1 [1; 2; 192; 127] [] (repeat 0 4096) 4 = Ok [127; 192; 2; 1] /\
  readMem LittleEndian [MSwap] exFl exFlV [(1, [127; 192; 2; 1], [repeat 0 4096])] 0 [0; 0; 0; 0; 9] = Ok [1; 2; 192; 127; 9].
Proof. split; [samePCM_tac|]. split; [frame_tac|]. split; vm_compute; reflexivity. Qed.

(** What the condition on 24-bit samples excludes: the fourth byte of a sample is not stored. *)
Theorem C71_24_bit_fourth_byte_refuted :
  callerFrame LittleEndian BigEndian (TI kInt24) (fileFrame LittleEndian BigEndian (TI kInt24) 1 [1; 2; 3; 7]) = [1; 2; 3; 0].
Proof. vm_compute. reflexivity. Qed.
Print Assumptions C71_24_bit_fourth_byte_refuted.
