(** * Properties of writing a file and reading it back: C53, C55, C56

    The file formats' headers are treated separately (see the Headers files); here the reader is told where
    the audio data starts and how many frames there are, and the file format's header update is any
    function that leaves the audio data alone. *)
From Verif Require Import Prelude PreludeFacts ByteOrder G711 G711Proofs FileIO Reader ReaderSpec ReaderProofs PropertiesReader.
From Verif Require Import Writer WriterSpec WriterProofs WriterHistory Codecs CodecsProofs RoundTripProofs PropertiesWriter.
From Verif Require Import IMA IMASpec IMAProofs.
From Verif Require MSADPCM MSADPCMSpec MSADPCMProofs PropertiesMSADPCM.

(** Integers that fit in [n] bytes, signed or unsigned. *)
Definition fits (sgn : bool) (n : nat) (x : Z) : Prop :=
  if sgn then - 2 ^ (8 * Z.of_nat n - 1) <= x < 2 ^ (8 * Z.of_nat n - 1) else 0 <= x < 2 ^ (8 * Z.of_nat n).

(** Reading the file of [st] back with the codec [r]: every history of reads, seeks, tells and frame-count
    queries behaves as the array of frames [frames]. *)
Definition readsAs {F V} (B : Build) (r : codec F) (back : F -> V) (bytes : list Z) (first total : Z) (frames : list V) : Prop :=
  zlen frames = total /\
  forall hasConv rops, seeksAllowed total rops ->
    crun r back hasConv true (openRead r bytes first total) rops = Ok (arun (mkA frames 0) rops).

Lemma holds_readsAs {F V} B (r : codec F) (back : F -> V) bytes first total frames :
  holds r bytes first total frames -> readsAs B r back bytes first total (map back frames).
Proof.
  intros H. split; [rewrite zlen_map; eapply holds_len; eauto|]. intros. now apply history.
Qed.

Lemma Forall_unmap {A C} (f : A -> C) P l : Forall (fun x => P (f x)) l -> Forall P (map f l).
Proof. intros. now apply Forall_map. Qed.

(** A codec of fixed frame size, with any history of writes and syncs. *)
Lemma perFrame_roundtrip {V W} (B : Build) E p bpf (enc : list Z -> list Z) okF okE dec (g : list Z -> list Z) :
  memoryless E (WPerFrame p bpf enc) okF okE ->
  forall (conv : V -> list Z) (back : list Z -> W) junk upd hdr first cap e0 (ops : list wop),
    okF junk -> 0 <= first -> okE e0 -> updKeeps upd first -> spaced false (ops ++ [Sync]) ->
    Forall (fun v => okF (conv v) /\ dec (enc (conv v)) = g (conv v)) (written ops) ->
    smallPCM (WPerFrame (E := E) p bpf enc) first (zlen (written ops)) -> written ops <> [] ->
    exists st, wrun (WPerFrame p bpf enc) conv junk true upd (openWrite (WPerFrame p bpf enc) hdr first cap e0) (ops ++ [Sync]) = Ok st /\
      w_totalf (ws_track st) = zlen (written ops) /\
      readsAs B (PerFrame p bpf dec) back (fbytes (ws_file st)) first (w_totalf (ws_track st)) (map (fun v => back (g (conv v))) (written ops)).
Proof.
  intros HM conv back junk upd hdr first cap e0 ops Hj Hf He Hu Hsp Hok Hs Hne.
  destruct (memoryless_library _ _ _ _ HM) as [HL _]. pose proof (library_lawful _ _ _ _ HL) as [Hb Hl].
  assert (Hok1 : Forall okF (map conv (written ops))) by (apply Forall_map; eapply Forall_impl; [|exact Hok]; cbn; tauto).
  destruct (C22_syncs_are_transparent_partial B E _ okF okE HM V conv junk upd hdr first cap e0 ops Hj Hf He I Hu Hsp Hok1 Hs)
    as (d & st & A & R & G & T1 & T2 & T3).
  exists st. split; [exact R|]. split; [exact T1|]. cbn [audio] in A. injection A as Ad. rewrite T1.
  assert (Hd : Forall (fun x => zlen (enc x) = bpf /\ dec (enc x) = g x) (map conv (written ops))).
  { apply Forall_map. eapply Forall_impl; [|exact Hok]. cbn. intros v [H1 H2]. auto. }
  assert (Zd : d <> []).
  { intros E0. rewrite E0 in Ad. assert (Q : zlen (concat (map enc (map conv (written ops)))) = bpf * zlen (written ops)).
    { rewrite (zlen_chunk_frames _ bpf); [now rewrite !zlen_map|]. apply Forall_map. eapply Forall_impl; [|exact Hd]. cbn. tauto. }
    rewrite Ad, zlen_nil in Q. destruct (written ops); [congruence|]. rewrite zlen_cons in Q. pose proof (zlen_nonneg l). nia. }
  pose proof (region_fits _ _ _ Hf Zd G) as Hfit. pose proof (zlen_nonneg d).
  rewrite <- (map_map (fun v => g (conv v)) back), <- (map_map conv g).
  apply holds_readsAs. rewrite <- (zlen_map conv). apply perFrame_holds with (enc := enc); auto; [lia|]. rewrite Ad. exact G.
Qed.

(** ** C55 *)

(** Integer PCM of any width, byte order, signedness and channel count: the samples read are the samples
    written, whatever the calls on either side. *)
Theorem C55_pcm_roundtrip :
  forall (B : Build) o (sgn : bool) n ch, (1 <= n)%nat -> 0 < ch ->
  forall (V W : Type) (conv : V -> list Z) (back : list Z -> W) junk upd hdr first cap (ops : list wop),
    zlen junk = ch -> 0 <= first -> updKeeps upd first -> spaced false (ops ++ [Sync]) ->
    Forall (fun v => frameOf ch (fits sgn n) (conv v)) (written ops) ->
    first + Z.of_nat n * ch * zlen (written ops) < 2 ^ 31 -> written ops <> [] ->
    exists st, wrun (pcmW o n ch) conv junk true upd (openWrite (pcmW o n ch) hdr first cap tt) (ops ++ [Sync]) = Ok st /\
      w_totalf (ws_track st) = zlen (written ops) /\
      readsAs B (pcmR o sgn n ch) back (fbytes (ws_file st)) first (w_totalf (ws_track st)) (map (fun v => back (conv v)) (written ops)).
Proof.
  intros B o sgn n ch Hn Hc V W conv back junk upd hdr first cap ops Hj Hf Hu Hsp Hok Hs Hne.
  unfold pcmW, pcmR. apply (perFrame_roundtrip B unit true (Z.of_nat n * ch) _ (frameOf ch (fun _ => True)) (fun _ => True) _ (fun x => x)); auto.
  - apply (M_pcm o n ch Hn Hc).
  - split; [exact Hj|]. apply Forall_forall; auto.
  - eapply Forall_impl; [|exact Hok]. cbn. intros v [H1 H2]. split; [split; [exact H1|apply Forall_forall; auto]|].
    apply pcm_frame_roundtrip; [exact Hn|]. split; [exact H1|]. exact H2.
Qed.
Print Assumptions C55_pcm_roundtrip.

(** G.711: the samples read are the quantised samples; files of any size. *)
Theorem C55_g711_roundtrip :
  forall (B : Build) ch, 0 < ch ->
  forall (V W : Type) (conv : V -> list Z) (back : list Z -> W) junk upd hdr first cap (ops : list wop),
    zlen junk = ch -> 0 <= first -> updKeeps upd first -> spaced false (ops ++ [Sync]) ->
    Forall (fun v => zlen (conv v) = ch) (written ops) -> written ops <> [] ->
    (exists st, wrun (ulawW ch) conv junk true upd (openWrite (ulawW ch) hdr first cap tt) (ops ++ [Sync]) = Ok st /\
      w_totalf (ws_track st) = zlen (written ops) /\
      readsAs B (ulawR ch) back (fbytes (ws_file st)) first (w_totalf (ws_track st))
        (map (fun v => back (map (fun x => ulaw2linear (linear2ulaw x)) (conv v))) (written ops))) /\
    (exists st, wrun (alawW ch) conv junk true upd (openWrite (alawW ch) hdr first cap tt) (ops ++ [Sync]) = Ok st /\
      w_totalf (ws_track st) = zlen (written ops) /\
      readsAs B (alawR ch) back (fbytes (ws_file st)) first (w_totalf (ws_track st))
        (map (fun v => back (map (fun x => alaw2linear (linear2alaw x)) (conv v))) (written ops))).
Proof.
  intros B ch Hc V W conv back junk upd hdr first cap ops Hj Hf Hu Hsp Hok Hne.
  assert (Ht : forall l : list Z, Forall (fun _ => True) l) by (intros; apply Forall_forall; auto).
  split.
  - apply (perFrame_roundtrip B unit false ch _ (frameOf ch (fun _ => True)) (fun _ => True) _ (map (fun x => ulaw2linear (linear2ulaw x)))); auto.
    + apply (M_ulaw ch Hc).
    + split; auto.
    + eapply Forall_impl; [|exact Hok]. cbn. intros v H1. split; [split; auto|]. unfold ulaw2linear_buf, linear2ulaw_buf. rewrite map_map. apply map_ext. intros x.
      pose proof (ulaw_dec_range _ (linear2ulaw_byte x)). apply sN_small; [lia|]. change (2 ^ (16 - 1)) with 32768. lia.
    + exact I.
  - apply (perFrame_roundtrip B unit false ch _ (frameOf ch (fun _ => True)) (fun _ => True) _ (map (fun x => alaw2linear (linear2alaw x)))); auto.
    + apply (M_alaw ch Hc).
    + split; auto.
    + eapply Forall_impl; [|exact Hok]. cbn. intros v H1. split; [split; auto|]. unfold alaw2linear_buf, linear2alaw_buf. rewrite map_map. apply map_ext. intros x.
      pose proof (alaw_dec_range _ (linear2alaw_byte x)). apply sN_small; [lia|]. change (2 ^ (16 - 1)) with 32768. lia.
    + exact I.
Qed.
Print Assumptions C55_g711_roundtrip.

Example C55_example :
  let ops := [Write [[1; -2]; [300; -32768]]; Sync; Write []; Write [[5; 6]]] in
  updKeeps (fun f _ => f) 4 /\ spaced false (ops ++ [Sync]) /\ Forall (fun v => frameOf 2 (fits true 2) v) (written ops) /\ written ops <> [].
Proof.
  split; [intros f t _; reflexivity|]. split; [cbn; auto|]. split; [|discriminate].
  unfold fits; repeat constructor; vm_compute; congruence.
Qed.

(** ADPCM: the frames read are the reconstructions, block after block, of what the encoder coded; a final
    incomplete block is completed with older samples, of which nothing is read.  One sync, at the end (see C22). *)
Definition imaQTblock (sts : list adpcmState) (b r : list (list Z)) : Prop := r = reconFrames (map roundQT sts) b.
Definition imaWAVEblock (sts : list adpcmState) (b r : list (list Z)) : Prop :=
  r = map previousValue sts :: reconFrames sts (firstn 504 b).
Definition ms1block (e : list MSADPCM.ms_state) (b r : list (list Z)) : Prop :=
  exists i d c x0 x1 l, aget MSADPCM.defaultCoefficients i = Ok c /\ 16 <= d <= 32768 /\ concat b = x0 :: x1 :: l /\
    concat r = x0 :: x1 :: MSADPCMSpec.mrecon c (MSADPCM.mkMs i d x1 x0) l.
Definition ms2block (e : list MSADPCM.ms_state) (b r : list (list Z)) : Prop :=
  forall k, (k < 2)%nat -> exists i d c x0 x1 l, aget MSADPCM.defaultCoefficients i = Ok c /\ 16 <= d <= 32768 /\ chan k b = x0 :: x1 :: l /\
    chan k r = x0 :: x1 :: MSADPCMSpec.mrecon c (MSADPCM.mkMs i d x1 x0) l.

Lemma blocks_roundtrip {V W} (B : Build) E fpp bpp (encB : E -> list (list Z) -> res (list Z * E)) okF okE decB R :
  library E (WBlocks fpp bpp encB) okF okE ->
  (forall e b d e', okE e -> zlen b = fpp -> Forall okF b -> encB e b = Ok (d, e') -> exists r, decB d = Ok r /\ zlen r = fpp /\ R e b r) ->
  forall (conv : V -> list Z) (back : list Z -> W) junk upd hdr first cap e0 (ws : list (list V)),
    okF junk -> 0 <= first -> okE e0 -> fpp <= cap -> updKeeps upd first ->
    Forall (fun v => okF (conv v)) (concat ws) -> concat ws <> [] ->
    exists st recs, wrun (WBlocks fpp bpp encB) conv junk true upd (openWrite (WBlocks fpp bpp encB) hdr first cap e0) (map Write ws ++ [Sync]) = Ok st /\
      w_totalf (ws_track st) = zlen (concat ws) /\
      recons encB R e0 (cut (length (concat ws)) fpp (zrepeat junk fpp) (map conv (concat ws))) recs /\
      readsAs B (Blocks fpp bpp decB) back (fbytes (ws_file st)) first (w_totalf (ws_track st)) (map back (zfirstn (zlen (concat ws)) (concat recs))).
Proof.
  intros HL Hdec conv back junk upd hdr first cap e0 ws Hj Hf He Hcap Hu Hok Hne. pose proof (library_lawful _ _ _ _ HL) as Hlaw.
  assert (Hok1 : Forall okF (map conv (concat ws))) by (now apply Forall_map).
  destruct (C24_file_contents B E _ okF okE HL V conv junk upd hdr first cap e0 ws Hj Hf He Hcap Hok1) as (d & st & t & A & R1 & Fi & W1 & W2 & W3 & W4).
  assert (T1 : w_totalf (ws_track st) = zlen (concat ws)).
  { destruct (writes_sync (B := B) _ conv junk upd okF okE Hlaw Hj hdr first cap e0 Hf He Hcap ws Hok1) as (d' & st' & A' & R' & T' & _).
    rewrite R1 in R'. injection R' as <-. rewrite T'. unfold finalTrack. cbn [w_totalf]. now rewrite zlen_map. }
  assert (G : region (fbytes (ws_file st)) first (zlen d) = d).
  { rewrite Fi. pose proof (Hu (mkFile (overwrite hdr first d) (first + zlen d)) t W1) as HU. rewrite W4 in HU.
    replace (first + zlen d - first) with (zlen d) in HU by lia. rewrite HU. cbn [fbytes]. now apply ow_region_data. }
  assert (Zd : d <> []).
  { intros ->. unfold audio in A. destruct (encode_decode_blocks fpp bpp encB decB okF okE R Hlaw Hdec (cut (length (map conv (concat ws))) fpp (zrepeat junk fpp) (map conv (concat ws))) e0 He) as (ds & recs & E1 & F1 & L1 & _).
    { destruct Hlaw as (B1 & _). apply cut_good; auto; [apply zlen_repeat; lia|]. apply Forall_forall. intros x Hx. apply repeat_spec in Hx. now subst. }
    rewrite E1 in A. injection A as A. destruct Hlaw as (B1 & B2 & _). pose proof (zlen_chunk_frames _ _ F1) as Hz. rewrite A, zlen_nil in Hz.
    destruct (concat ws) as [|x l]; [congruence|]. cbn [map length cut] in L1. destruct ds; [discriminate|]. rewrite zlen_cons in Hz. pose proof (zlen_nonneg ds). nia. }
  pose proof (region_fits _ _ _ Hf Zd G) as Hfit. pose proof (zlen_nonneg d).
  destruct (blocks_holds fpp bpp encB decB okF okE R Hlaw Hdec junk e0 (map conv (concat ws)) (fbytes (ws_file st)) first d) as (recs & HR & HH); auto; [lia|].
  exists st, recs. split; [exact R1|]. split; [exact T1|]. rewrite map_length in HR. split; [exact HR|]. rewrite T1. rewrite zlen_map in HH.
  now apply holds_readsAs.
Qed.

Theorem C55_ima_quicktime_roundtrip :
  forall (B : Build) ch, (1 <= ch)%nat ->
  forall (V W : Type) (conv : V -> list Z) (back : list Z -> W) junk upd hdr first cap e0 (ws : list (list V)),
    length junk = ch -> 0 <= first -> imaStates ch e0 -> 64 <= cap -> updKeeps upd first ->
    Forall (fun v => length (conv v) = ch) (concat ws) -> concat ws <> [] ->
    exists st recs, wrun (imaQTW ch) conv junk true upd (openWrite (imaQTW ch) hdr first cap e0) (map Write ws ++ [Sync]) = Ok st /\
      w_totalf (ws_track st) = zlen (concat ws) /\
      recons (encodeBlockQT 64) imaQTblock e0 (cut (length (concat ws)) 64 (zrepeat junk 64) (map conv (concat ws))) recs /\
      readsAs B (imaQTR ch) back (fbytes (ws_file st)) first (w_totalf (ws_track st)) (map back (zfirstn (zlen (concat ws)) (concat recs))).
Proof.
  intros B ch Hc V W conv back junk upd hdr first cap e0 ws Hj Hf He Hcap Hu Hok Hne.
  assert (Ht : forall l : list Z, length l = ch -> frameOf (Z.of_nat ch) (fun _ => True) l).
  { intros l Hl. split; [unfold zlen; lia|apply Forall_forall; auto]. }
  apply (blocks_roundtrip B _ _ _ _ (frameOf (Z.of_nat ch) (fun _ => True)) (imaStates ch) _ imaQTblock); auto.
  - apply (L_imaqt ch Hc).
  - intros e b d e' [Le Ge] Lb Fb E1. pose proof (frames_of_frameOf _ _ _ Fb) as Hfr. rewrite <- Le in Hfr.
    destruct (blockQT_lockstep 32 e b [] Ge Hfr) as (d0 & E2 & D & L & _).
    { unfold zlen, imaQT_fpp in Lb. lia. }
    change (2 * Z.of_nat 32) with imaQT_fpp in E2, D. rewrite E1 in E2. injection E2 as -> _. rewrite app_nil_r in D. rewrite Le in D.
    eexists. rewrite D. split; [reflexivity|]. cbn [fst]. split; [|reflexivity]. unfold zlen. rewrite reconFrames_length. exact Lb.
  - eapply Forall_impl; [|exact Hok]. cbn. auto.
Qed.
Print Assumptions C55_ima_quicktime_roundtrip.

Theorem C55_ima_wave_roundtrip :
  forall (B : Build) ch, (1 <= ch)%nat ->
  forall (V W : Type) (conv : V -> list Z) (back : list Z -> W) junk upd hdr first cap e0 (ws : list (list V)),
    length junk = ch -> 0 <= first -> imaStates ch e0 -> 505 <= cap -> updKeeps upd first ->
    Forall (fun v => length (conv v) = ch) (concat ws) -> concat ws <> [] ->
    exists st recs, wrun (imaWAVEW ch) conv junk true upd (openWrite (imaWAVEW ch) hdr first cap e0) (map Write ws ++ [Sync]) = Ok st /\
      w_totalf (ws_track st) = zlen (concat ws) /\
      recons (encodeBlockWAVE 505) imaWAVEblock e0 (cut (length (concat ws)) 505 (zrepeat junk 505) (map conv (concat ws))) recs /\
      readsAs B (imaWAVER ch) back (fbytes (ws_file st)) first (w_totalf (ws_track st)) (map back (zfirstn (zlen (concat ws)) (concat recs))).
Proof.
  intros B ch Hc V W conv back junk upd hdr first cap e0 ws Hj Hf He Hcap Hu Hok Hne.
  assert (Ht : forall l : list Z, length l = ch -> frameOf (Z.of_nat ch) (fun _ => True) l).
  { intros l Hl. split; [unfold zlen; lia|apply Forall_forall; auto]. }
  apply (blocks_roundtrip B _ _ _ _ (frameOf (Z.of_nat ch) (fun _ => True)) (imaStates ch) _ imaWAVEblock); auto.
  - apply (L_imawave ch Hc).
  - intros e b d e' [Le Ge] Lb Fb E1. pose proof (frames_of_frameOf _ _ _ Fb) as Hfr. rewrite <- Le in Hfr.
    assert (Lb' : length b = 505%nat) by (unfold zlen, imaWAVE_fpp in Lb; lia).
    destruct (blockWAVE_lockstep 63 e b [] Ge Hfr) as (d0 & E2 & D & L & _); [lia|].
    change (8 * Z.of_nat 63 + 1) with imaWAVE_fpp in E2, D. rewrite E1 in E2. injection E2 as -> _. rewrite app_nil_r in D. rewrite Le in D.
    eexists. rewrite D. split; [reflexivity|]. cbn [fst]. split; [|reflexivity]. unfold zlen. cbn [length]. rewrite reconFrames_length, firstn_length, Lb'. reflexivity.
  - eapply Forall_impl; [|exact Hok]. cbn. auto.
Qed.
Print Assumptions C55_ima_wave_roundtrip.

Lemma mrecon_length c l : forall st, length (MSADPCMSpec.mrecon c st l) = length l.
Proof. induction l as [|x l IH]; intros st; [reflexivity|]. cbn [MSADPCMSpec.mrecon length]. now rewrite IH. Qed.

Lemma zip2_chan l : forall r, length l = length r ->
  zlen (pairUp (MSADPCMSpec.zip2 l r)) = zlen l /\ chan 0 (pairUp (MSADPCMSpec.zip2 l r)) = l /\ chan 1 (pairUp (MSADPCMSpec.zip2 l r)) = r.
Proof.
  induction l as [|x l IH]; intros [|y r] H; try discriminate; [auto|]. cbn [MSADPCMSpec.zip2 pairUp chan map nth].
  destruct (IH r ltac:(cbn in H; lia)) as (L & C0 & C1). unfold chan in *. rewrite !zlen_cons, L, C0, C1. auto.
Qed.

Theorem C55_msadpcm_mono_roundtrip :
  forall (B : Build) (V W : Type) (conv : V -> list Z) (back : list Z -> W) junk upd hdr first cap e0 (ws : list (list V)),
    frameOf 1 MSADPCMSpec.s16ok junk -> 0 <= first -> length e0 = 1%nat -> 500 <= cap -> updKeeps upd first ->
    Forall (fun v => frameOf 1 MSADPCMSpec.s16ok (conv v)) (concat ws) -> concat ws <> [] ->
    exists st recs, wrun ms1W conv junk true upd (openWrite ms1W hdr first cap e0) (map Write ws ++ [Sync]) = Ok st /\
      w_totalf (ws_track st) = zlen (concat ws) /\
      recons ms1Enc ms1block e0 (cut (length (concat ws)) 500 (zrepeat junk 500) (map conv (concat ws))) recs /\
      readsAs B ms1R back (fbytes (ws_file st)) first (w_totalf (ws_track st)) (map back (zfirstn (zlen (concat ws)) (concat recs))).
Proof.
  intros B V W conv back junk upd hdr first cap e0 ws Hj Hf He Hcap Hu Hok Hne.
  destruct (@blocks_roundtrip V W B _ 500 256 ms1Enc (frameOf 1 MSADPCMSpec.s16ok) (msStates 1)
     (fun b => rmap (map (fun x => [x])) (MSADPCM.decodeBlock1 MSADPCM.defaultCoefficients 249 b)) ms1block) with (conv := conv) (back := back) (junk := junk) (upd := upd) (hdr := hdr) (first := first) (cap := cap) (e0 := e0) (ws := ws) as (st & recs & H);
    [exact L_ms1| |exact Hj|exact Hf|exact He|exact Hcap|exact Hu|exact Hok|exact Hne|].
  - intros e b d e' Le Lb Fb E1. unfold ms1Enc in E1. destruct e as [|st [|]]; try discriminate.
    destruct (concat_mono _ _ Fb) as (L & Fc & _).
    destruct (MSADPCMProofs.block1_lockstep (B := B) MSADPCM.defaultCoefficients st (concat b) 249) as (d0 & st' & i & dl & c & x0 & x1 & l & Ec & E2 & Ea & Hd & D & _);
      auto using PropertiesMSADPCM.defaultCoefficients_ok; try discriminate; try lia.
    { unfold zlen in *. lia. }
    rewrite E2 in E1. cbn [rbind] in E1. injection E1 as -> _. rewrite D. cbn [rmap rbind]. eexists. split; [reflexivity|].
    assert (Lc : zlen (concat b) = 500) by lia. rewrite Ec, !zlen_cons in Lc. split.
    + rewrite zlen_map, !zlen_cons. unfold zlen in *. rewrite mrecon_length. lia.
    + exists i, dl, c, x0, x1, l. split; [exact Ea|]. split; [exact Hd|]. split; [exact Ec|].
      assert (Q : forall l : list Z, concat (map (fun x => [x]) l) = l) by (induction l0 as [|y l0 IH]; [reflexivity|cbn; now rewrite IH]). apply Q.
  - exists st, recs. exact H.
Qed.
Print Assumptions C55_msadpcm_mono_roundtrip.

Theorem C55_msadpcm_stereo_roundtrip :
  forall (B : Build) (V W : Type) (conv : V -> list Z) (back : list Z -> W) junk upd hdr first cap e0 (ws : list (list V)),
    frameOf 2 MSADPCMSpec.s16ok junk -> 0 <= first -> length e0 = 2%nat -> 500 <= cap -> updKeeps upd first ->
    Forall (fun v => frameOf 2 MSADPCMSpec.s16ok (conv v)) (concat ws) -> concat ws <> [] ->
    exists st recs, wrun ms2W conv junk true upd (openWrite ms2W hdr first cap e0) (map Write ws ++ [Sync]) = Ok st /\
      w_totalf (ws_track st) = zlen (concat ws) /\
      recons ms2Enc ms2block e0 (cut (length (concat ws)) 500 (zrepeat junk 500) (map conv (concat ws))) recs /\
      readsAs B ms2R back (fbytes (ws_file st)) first (w_totalf (ws_track st)) (map back (zfirstn (zlen (concat ws)) (concat recs))).
Proof.
  intros B V W conv back junk upd hdr first cap e0 ws Hj Hf He Hcap Hu Hok Hne.
  destruct (@blocks_roundtrip V W B _ 500 512 ms2Enc (frameOf 2 MSADPCMSpec.s16ok) (msStates 2)
     (fun b => rmap pairUp (MSADPCM.decodeBlock2 MSADPCM.defaultCoefficients 498 b)) ms2block) with (conv := conv) (back := back) (junk := junk) (upd := upd) (hdr := hdr) (first := first) (cap := cap) (e0 := e0) (ws := ws) as (st & recs & H);
    [exact L_ms2| |exact Hj|exact Hf|exact He|exact Hcap|exact Hu|exact Hok|exact Hne|].
  - intros e b d e' Le Lb Fb E1. unfold ms2Enc in E1. destruct e as [|sl [|sr [|]]]; try discriminate.
    destruct (concat_stereo _ _ Fb) as (Ec & F0 & F1).
    assert (L : forall k, length (chan k b) = 500%nat) by (intros k; unfold chan; rewrite map_length; unfold zlen in Lb; lia).
    destruct (MSADPCMProofs.block2_lockstep (B := B) MSADPCM.defaultCoefficients sl sr (chan 0 b) (chan 1 b) 498)
      as (d0 & sl' & sr' & i & j & dl & dr & cl & cr & l0 & l1 & l & r0 & r1 & r & El & Er & E2 & Ea1 & Ea2 & Hd1 & Hd2 & D & _);
      auto using PropertiesMSADPCM.defaultCoefficients_ok; try discriminate; try lia; try (rewrite L; reflexivity).
    rewrite Ec, E2 in E1. cbn [rbind] in E1. injection E1 as -> _. rewrite D. cbn [rmap rbind]. eexists. split; [reflexivity|].
    pose proof (L 0%nat) as L0. pose proof (L 1%nat) as L1. rewrite El in L0. rewrite Er in L1. cbn [length] in L0, L1.
    destruct (zip2_chan (l0 :: l1 :: MSADPCMSpec.mrecon cl (MSADPCM.mkMs i dl l1 l0) l) (r0 :: r1 :: MSADPCMSpec.mrecon cr (MSADPCM.mkMs j dr r1 r0) r)) as (Z1 & C0 & C1).
    { cbn [length]. rewrite !mrecon_length. lia. }
    split; [rewrite Z1, !zlen_cons; unfold zlen; rewrite mrecon_length; lia|].
    intros [|[|k]] Hk; [| |lia].
    + exists i, dl, cl, l0, l1, l. auto.
    + exists j, dr, cr, r0, r1, r. auto.
  - exists st, recs. exact H.
Qed.
Print Assumptions C55_msadpcm_stereo_roundtrip.

(** ** C53, for PCM: what a crash leaves is readable *)
Theorem C53_crashed_pcm_file_reads_as_at_the_sync :
  forall (B : Build) o (sgn : bool) n ch, (1 <= n)%nat -> 0 < ch ->
  forall (V W : Type) (conv : V -> list Z) (back : list Z -> W) junk upd hdr first cap (ops : list wop) (ws : list (list V)),
    zlen junk = ch -> 0 <= first -> updKeeps upd first -> spaced false (ops ++ [Sync]) ->
    Forall (fun v => frameOf ch (fits sgn n) (conv v)) (written ops) -> Forall (fun v => zlen (conv v) = ch) (concat ws) ->
    first + Z.of_nat n * ch * zlen (written ops) < 2 ^ 31 -> written ops <> [] ->
    exists st, wrun (pcmW o n ch) conv junk true upd (openWrite (pcmW o n ch) hdr first cap tt) (ops ++ [Sync]) = Ok st /\
      forall X, crashImage B (pcmW o n ch) conv junk upd st ws X ->
        zfirstn first X = zfirstn first (fbytes (ws_file st)) /\
        readsAs B (pcmR o sgn n ch) back X first (zlen (written ops)) (map (fun v => back (conv v)) (written ops)).
Proof.
  intros B o sgn n ch Hn Hc V W conv back junk upd hdr first cap ops ws Hj Hf Hu Hsp Hok Hws Hs Hne.
  assert (Ht : forall l : list Z, Forall (fun _ => True) l) by (intros; apply Forall_forall; auto).
  destruct (C53_crash_keeps_synced_frames_partial B unit (pcmW o n ch) (frameOf ch (fun _ => True)) (fun _ => True) (M_pcm o n ch Hn Hc)
     V conv junk upd hdr first cap tt ops ws) as (st & d & R & A & G & C); auto.
  { split; auto. } { exact I. }
  { apply Forall_map. eapply Forall_impl; [|exact Hok]. intros v [H1 _]. split; auto. }
  { apply Forall_map. eapply Forall_impl; [|exact Hws]. intros v H1. split; auto. }
  exists st. split; [exact R|]. intros X HX. specialize (C X HX). cbv beta iota zeta delta [pcmW] in C.
  unfold audio, pcmW in A. injection A as Ad.
  assert (Hd : Forall (fun x => zlen (concat (map (sampleBytes o n) x)) = Z.of_nat n * ch /\
     map (sampleOf o sgn n) (chunksOf (Z.to_nat ch) (Z.of_nat n) (concat (map (sampleBytes o n) x))) = x) (map conv (written ops))).
  { apply Forall_map. eapply Forall_impl; [|exact Hok]. cbn. intros v Hv. split; [|now apply pcm_frame_roundtrip].
    rewrite (concat_len_const _ (Z.of_nat n)); [rewrite (proj1 Hv); reflexivity|]. intros; apply sampleBytes_len. }
  assert (Ld : zlen d = Z.of_nat n * ch * zlen (written ops)).
  { rewrite <- Ad, (zlen_chunk_frames _ (Z.of_nat n * ch)); [now rewrite !zlen_map|]. apply Forall_map. eapply Forall_impl; [|exact Hd]. cbn. tauto. }
  assert (Pw : 0 < zlen (written ops)) by (destruct (written ops); [congruence|rewrite zlen_cons; pose proof (zlen_nonneg l); lia]).
  assert (Pd : 0 < zlen d) by nia.
  assert (Zd : d <> []) by (clear - Pd; destruct d; [unfold zlen in Pd; cbn in Pd; lia|discriminate]).
  pose proof (region_fits _ _ _ Hf Zd G) as Hfit. specialize (C ltac:(lia)). destruct HX as [HX _].
  assert (GX : region X first (zlen d) = d).
  { rewrite <- (region_firstn X first (zlen d) (first + zlen d)) by lia. rewrite C. rewrite region_firstn; [exact G|lia..]. }
  split.
  - apply (f_equal (zfirstn first)) in C. rewrite !zfirstn_zfirstn, !Z.min_l in C by lia. exact C.
  - rewrite <- (map_map conv back), <- (map_id (map conv (written ops))). apply holds_readsAs. rewrite <- (zlen_map conv).
    apply perFrame_holds with (enc := fun fr => concat (map (sampleBytes o n) fr)); [lia|nia|exact Hd|]. rewrite Ad. exact GX.
Qed.
Print Assumptions C53_crashed_pcm_file_reads_as_at_the_sync.

(** ** C56 *)

(** The contents of a file are determined by what was written, not by what happened to be in memory: fixed
    frame size codecs always; block codecs when at least one complete block was written.  *)
Lemma cut_independent {F} n (l : list F) k p p' : 0 < n -> zlen p = n -> zlen p' = n -> n <= zlen l \/ l = [] ->
  cut k n p l = cut k n p' l.
Proof.
  intros Hn H1 H2 Hl. destruct k as [|k]; [reflexivity|]. destruct l as [|x l]; [reflexivity|]. cbn [cut].
  destruct Hl as [Hl|]; [|discriminate].
  rewrite (zskipn_all _ p), (zskipn_all _ p') by lia. reflexivity.
Qed.

Theorem C56_contents_depend_on_frames_only_partial :
  forall (B : Build) E c okF okE, library E c okF okE ->
  forall (V : Type) (conv : V -> list Z) junk junk' upd hdr first cap e0 (ws : list (list V)),
    okF junk -> okF junk' -> 0 <= first -> okE e0 -> room c cap -> Forall okF (map conv (concat ws)) ->
    match c with WPerFrame _ _ _ => True | WBlocks fpp _ _ => fpp <= zlen (concat ws) end ->
    exists st st',
      wrun c conv junk true upd (openWrite c hdr first cap e0) (map Write ws ++ [Sync]) = Ok st /\
      wrun c conv junk' true upd (openWrite c hdr first cap e0) (map Write ws ++ [Sync]) = Ok st' /\
      ws_file st = ws_file st' /\ ws_track st = ws_track st'.
Proof.
  intros B E c okF okE HL V conv junk junk' upd hdr first cap e0 ws Hj Hj' Hf He Hr Hok Hblk.
  pose proof (library_lawful _ _ _ _ HL) as Hlaw.
  destruct (writes_sync c conv junk upd okF okE Hlaw Hj hdr first cap e0 Hf He Hr ws Hok) as (d1 & st1 & A1 & R1 & T1 & F1).
  destruct (writes_sync c conv junk' upd okF okE Hlaw Hj' hdr first cap e0 Hf He Hr ws Hok) as (d2 & st2 & A2 & R2 & T2 & F2).
  exists st1, st2. split; [exact R1|]. split; [exact R2|].
  assert (Ed : d1 = d2).
  { enough (Q : audio c junk e0 (map conv (concat ws)) = audio c junk' e0 (map conv (concat ws))) by congruence.
    unfold audio. unfold lawful in Hlaw. destruct c as [|fpp bpp encB]; [reflexivity|]. destruct Hlaw as (B1 & _).
    f_equal. apply cut_independent; [exact B1|apply zlen_repeat; lia|apply zlen_repeat; lia|]. left. now rewrite zlen_map. }
  subst d2. split; congruence.
Qed.
Print Assumptions C56_contents_depend_on_frames_only_partial.

(** A file shorter than a block: the rest of the block is whatever was in the heap. *)
Theorem C56_short_block_file_leaks_memory_refuted :
  forall B : Build, exists (a junk junk' : list Z) st st',
    wrun (imaQTW 1) (fun x => x) junk true (fun f _ => f) (openWrite (imaQTW 1) [] 0 1024 [initState]) [Write [a]; Sync] = Ok st /\
    wrun (imaQTW 1) (fun x => x) junk' true (fun f _ => f) (openWrite (imaQTW 1) [] 0 1024 [initState]) [Write [a]; Sync] = Ok st' /\
    fbytes (ws_file st) <> fbytes (ws_file st').
Proof.
  intros B. exists [5], [0], [20000]. do 2 eexists. split; [vm_compute; reflexivity|]. split; [vm_compute; reflexivity|]. vm_compute. congruence.
Qed.
Print Assumptions C56_short_block_file_leaks_memory_refuted.

Example C56_example : library _ (imaQTW 1) (frameOf 1 (fun _ => True)) (imaStates 1) /\ room (imaQTW 1) 1024 /\ 64 <= zlen (concat [ramp 40; ramp 30]).
Proof. split; [exact (L_imaqt 1 (le_n 1))|]. split; [unfold room, imaQTW, imaQT_fpp; lia|]. vm_compute. congruence. Qed.
