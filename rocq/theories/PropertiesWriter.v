(** * Properties of writing: C22, C24, C27, C51, C53, C55, C56 *)
From Verif Require Import Prelude PreludeFacts ByteOrder G711 FileIO Reader ReaderSpec ReaderProofs PropertiesReader.
From Verif Require Import Writer WriterSpec WriterProofs WriterHistory Codecs CodecsProofs RoundTripProofs.
From Verif Require Import IMA IMASpec IMAProofs.
From Verif Require MSADPCM MSADPCMSpec.

(** The library's codecs, with the frames and encoder states each of them is used with. *)
Inductive library : forall E, wcodec (list Z) E -> (list Z -> Prop) -> (E -> Prop) -> Prop :=
| L_pcm o n ch : (1 <= n)%nat -> 0 < ch -> library unit (pcmW o n ch) (frameOf ch (fun _ => True)) (fun _ => True)
| L_ulaw ch : 0 < ch -> library unit (ulawW ch) (frameOf ch (fun _ => True)) (fun _ => True)
| L_alaw ch : 0 < ch -> library unit (alawW ch) (frameOf ch (fun _ => True)) (fun _ => True)
| L_imaqt ch : (1 <= ch)%nat -> library _ (imaQTW ch) (frameOf (Z.of_nat ch) (fun _ => True)) (imaStates ch)
| L_imawave ch : (1 <= ch)%nat -> library _ (imaWAVEW ch) (frameOf (Z.of_nat ch) (fun _ => True)) (imaStates ch)
| L_ms1 : library _ ms1W (frameOf 1 MSADPCMSpec.s16ok) (msStates 1)
| L_ms2 : library _ ms2W (frameOf 2 MSADPCMSpec.s16ok) (msStates 2).

Lemma library_lawful E c okF okE : library E c okF okE -> lawful c okF okE.
Proof.
  intros []; auto using pcm_lawful, ulaw_lawful, alaw_lawful, imaQT_lawful, imaWAVE_lawful, ms1_lawful, ms2_lawful.
Qed.

(** The chunk in front of a block encoder holds at least one block. *)
Definition room {F E} (c : wcodec F E) (cap : Z) : Prop := match c with WBlocks fpp _ _ => fpp <= cap | _ => True end.

(** ** C24 *)

(** However the frames are split among calls of afWriteFrames, the file and the track end up the same. *)
Theorem C24_splitting_writes :
  forall (B : Build) E c okF okE, library E c okF okE ->
  forall (V : Type) (conv : V -> list Z) junk upd hdr first cap e0 (ws1 ws2 : list (list V)),
    okF junk -> 0 <= first -> okE e0 -> room c cap -> Forall okF (map conv (concat ws1)) -> concat ws1 = concat ws2 ->
    exists st1 st2,
      wrun c conv junk true upd (openWrite c hdr first cap e0) (map Write ws1 ++ [Sync]) = Ok st1 /\
      wrun c conv junk true upd (openWrite c hdr first cap e0) (map Write ws2 ++ [Sync]) = Ok st2 /\
      ws_file st1 = ws_file st2 /\ ws_track st1 = ws_track st2.
Proof.
  intros B E c okF okE HL V conv junk upd hdr first cap e0 ws1 ws2 Hj Hf He Hr Hok Heq.
  pose proof (library_lawful _ _ _ _ HL) as Hlaw.
  destruct (writes_sync c conv junk upd okF okE Hlaw Hj hdr first cap e0 Hf He Hr ws1 Hok) as (d1 & st1 & A1 & R1 & T1 & F1).
  assert (Hok2 : Forall okF (map conv (concat ws2))) by (rewrite <- Heq; exact Hok).
  destruct (writes_sync c conv junk upd okF okE Hlaw Hj hdr first cap e0 Hf He Hr ws2 Hok2) as (d2 & st2 & A2 & R2 & T2 & F2).
  exists st1, st2. split; [exact R1|]. split; [exact R2|]. rewrite <- Heq in A2, T2, F2. rewrite A1 in A2. injection A2 as <-.
  split; [now rewrite F1, F2|now rewrite T1, T2].
Qed.
Print Assumptions C24_splitting_writes.

(** And what they end up as: the header update applied to the file in which the encoded frames follow the
    header. *)
Theorem C24_file_contents :
  forall (B : Build) E c okF okE, library E c okF okE ->
  forall (V : Type) (conv : V -> list Z) junk upd hdr first cap e0 (ws : list (list V)),
    okF junk -> 0 <= first -> okE e0 -> room c cap -> Forall okF (map conv (concat ws)) ->
    exists d st t, audio c junk e0 (map conv (concat ws)) = Ok d /\
      wrun c conv junk true upd (openWrite c hdr first cap e0) (map Write ws ++ [Sync]) = Ok st /\
      ws_file st = upd (mkFile (overwrite hdr first d) (first + zlen d)) t /\
      w_first t = first /\ w_totalf t = zlen (concat ws) /\ w_dsize t = zlen d /\ w_after t = first + zlen d.
Proof.
  intros B E c okF okE HL V conv junk upd hdr first cap e0 ws Hj Hf He Hr Hok.
  destruct (writes_sync c conv junk upd okF okE (library_lawful _ _ _ _ HL) Hj hdr first cap e0 Hf He Hr ws Hok) as (d & st & A & R & T & Fi).
  exists d, st, (finalTrack c first (map conv (concat ws)) d (zlen (concat ws))). split; [exact A|]. split; [exact R|]. split; [exact Fi|].
  unfold finalTrack. destruct c; cbn [w_first w_totalf w_dsize w_after]; rewrite zlen_map; auto.
Qed.
Print Assumptions C24_file_contents.

Example C24_example_pcm (B : Build) :
  rmap (fun st => fbytes (ws_file st))
    (wrun (pcmW BigEndian 2 2) (fun x => x) [0; 0] true (fun f _ => f) (openWrite (pcmW BigEndian 2 2) [7; 7] 2 0 tt)
      [Write [[1; -2]]; Write []; Write [[3; 4]; [-5; 600]]; Sync])
  = Ok [7; 7; 0; 1; 255; 254; 0; 3; 0; 4; 255; 251; 2; 88].
Proof. vm_compute. reflexivity. Qed.

Definition ramp (n : nat) : list (list Z) := map (fun k => [100 * Z.of_nat k - 3000]) (seq 0 n).
Example C24_example_ima (B : Build) :
  library _ (imaQTW 1) (frameOf 1 (fun _ => True)) (imaStates 1) /\ imaStates 1 [initState] /\ room (imaQTW 1) 1024 /\
  Forall (frameOf 1 (fun _ => True)) (ramp 100) /\
  (exists st, wrun (imaQTW 1) (fun x => x) [0] true (fun f _ => f) (openWrite (imaQTW 1) [7] 1 1024 [initState])
      [Write (firstn 30 (ramp 100)); Write (skipn 30 (ramp 100)); Sync] = Ok st /\ zlen (fbytes (ws_file st)) = 69 /\ w_totalf (ws_track st) = 100).
Proof.
  split; [apply (L_imaqt 1); lia|]. split; [split; [reflexivity|repeat constructor; unfold legal; cbn; lia]|]. split; [vm_compute; congruence|].
  split; [unfold ramp; apply Forall_map, Forall_forall; intros; split; [reflexivity|repeat constructor]|].
  eexists. split; [vm_compute; reflexivity|]. split; vm_compute; reflexivity.
Qed.

(** ** C51 *)

(** The frame count, the data size and the length of the audio data agree after writing. *)
Theorem C51_counts_after_writing :
  forall (B : Build) E c okF okE, library E c okF okE ->
  forall (V : Type) (conv : V -> list Z) junk upd hdr first cap e0 (ws : list (list V)),
    okF junk -> 0 <= first -> okE e0 -> room c cap -> Forall okF (map conv (concat ws)) ->
    exists st, wrun c conv junk true upd (openWrite c hdr first cap e0) (map Write ws ++ [Sync]) = Ok st /\
      let n := zlen (concat ws) in
      w_totalf (ws_track st) = n /\ w_totalv (ws_track st) = n /\ w_after (ws_track st) = w_first (ws_track st) + w_dsize (ws_track st) /\
      w_dsize (ws_track st) = match c with WPerFrame _ bpf _ => bpf * n | WBlocks fpp bpp _ => bpp * ((n + fpp - 1) / fpp) end.
Proof.
  intros B E c okF okE HL V conv junk upd hdr first cap e0 ws Hj Hf He Hr Hok. pose proof (library_lawful _ _ _ _ HL) as Hlaw.
  destruct (writes_sync c conv junk upd okF okE Hlaw Hj hdr first cap e0 Hf He Hr ws Hok) as (d & st & A & R & T & _).
  exists st. split; [exact R|]. cbv zeta. rewrite T.
  assert (Hd : zlen d = match c with WPerFrame _ bpf _ => bpf * zlen (concat ws) | WBlocks fpp bpp _ => bpp * ((zlen (concat ws) + fpp - 1) / fpp) end).
  { unfold audio in A. clear HL Hr T R. destruct c as [p bpf enc|fpp bpp encB].
    - injection A as <-. destruct Hlaw as [Hb Hl]. rewrite (zlen_chunk_frames _ bpf); [now rewrite !zlen_map|]. apply Forall_map. eapply Forall_impl; [|exact Hok]. exact Hl.
    - destruct (encode_decode_blocks fpp bpp encB (fun _ => Ok (zrepeat junk fpp)) okF okE (fun _ _ _ => True) Hlaw) with (blocks := cut (length (map conv (concat ws))) fpp (zrepeat junk fpp) (map conv (concat ws))) (e := e0)
        as (ds & recs & E1 & F1 & L1 & _); auto.
      + intros. exists (zrepeat junk fpp). destruct Hlaw. split; [reflexivity|]. split; [apply zlen_repeat; lia|exact I].
      + destruct Hlaw. apply cut_good; auto; [apply zlen_repeat; lia|]. apply Forall_forall. intros x Hx. apply repeat_spec in Hx. now subst.
      + rewrite E1 in A. injection A as <-. rewrite (zlen_chunk_frames _ _ F1). f_equal.
        destruct Hlaw as (B1 & _). unfold zlen at 1. rewrite L1. fold (zlen (cut (length (map conv (concat ws))) fpp (zrepeat junk fpp) (map conv (concat ws)))).
        rewrite cut_count by (auto; lia). now rewrite zlen_map. }
  unfold finalTrack. destruct c; cbn [w_first w_totalf w_totalv w_dsize w_after]; rewrite zlen_map; auto.
Qed.
Print Assumptions C51_counts_after_writing.

(** Block codecs: a partial block written by an earlier sync is counted again.  One frame, a sync, another
    frame, a sync: the file holds one 34-byte block and the recorded data size is 68. *)
Theorem C51_data_size_after_sync_refuted :
  forall B : Build, exists st,
    wrun (imaQTW 1) (fun x => x) [0] true (fun f _ => f) (openWrite (imaQTW 1) [] 0 1024 [initState])
      [Write [[5]]; Sync; Write [[6]]; Sync] = Ok st /\
    zlen (fbytes (ws_file st)) = 34 /\ w_totalf (ws_track st) = 2 /\ w_dsize (ws_track st) = 68.
Proof. intros B. eexists. split; [vm_compute; reflexivity|]. split; [|split]; vm_compute; reflexivity. Qed.
Print Assumptions C51_data_size_after_sync_refuted.

(** ** C22 *)

(** The codecs whose encoder keeps nothing from one block to the next. *)
Inductive memoryless : forall E, wcodec (list Z) E -> (list Z -> Prop) -> (E -> Prop) -> Prop :=
| M_pcm o n ch : (1 <= n)%nat -> 0 < ch -> memoryless unit (pcmW o n ch) (frameOf ch (fun _ => True)) (fun _ => True)
| M_ulaw ch : 0 < ch -> memoryless unit (ulawW ch) (frameOf ch (fun _ => True)) (fun _ => True)
| M_alaw ch : 0 < ch -> memoryless unit (alawW ch) (frameOf ch (fun _ => True)) (fun _ => True)
| M_ms1 : memoryless _ ms1W (frameOf 1 MSADPCMSpec.s16ok) (msStates 1)
| M_ms2 : memoryless _ ms2W (frameOf 2 MSADPCMSpec.s16ok) (msStates 2).

Lemma memoryless_library E c okF okE : memoryless E c okF okE -> library E c okF okE /\ stateless c okF okE.
Proof.
  intros []; (split; [constructor; auto|]); try exact I.
  - unfold stateless, ms1W, ms1Enc. intros e e' b He He' _ _. destruct e as [|s [|]], e' as [|s' [|]]; try discriminate.
    rewrite (encodeBlock1_stateless _ s s'). reflexivity.
  - unfold stateless, ms2W, ms2Enc. intros e e' b He He' _ _. destruct e as [|s [|r [|]]], e' as [|s' [|r' [|]]]; try discriminate.
    rewrite (encodeBlock2_stateless _ s r s' r'). reflexivity.
Qed.

(** Syncing at any points of the history leaves the encoded audio, and the frame counts, as if all frames
    had been written at once.  Missing: a sync directly after a sync, and codecs with memory (see the
    refutations below). *)
Theorem C22_syncs_are_transparent_partial :
  forall (B : Build) E c okF okE, memoryless E c okF okE ->
  forall (V : Type) (conv : V -> list Z) junk upd hdr first cap e0 (ops : list wop),
    okF junk -> 0 <= first -> okE e0 -> room c cap -> updKeeps upd first ->
    spaced false (ops ++ [Sync]) -> Forall okF (map conv (written ops)) -> smallPCM c first (zlen (written ops)) ->
    exists d st,
      audio c junk e0 (map conv (written ops)) = Ok d /\
      wrun c conv junk true upd (openWrite c hdr first cap e0) (ops ++ [Sync]) = Ok st /\
      region (fbytes (ws_file st)) first (zlen d) = d /\
      w_totalf (ws_track st) = zlen (written ops) /\ w_totalv (ws_track st) = zlen (written ops) /\
      w_after (ws_track st) = first + zlen d.
Proof.
  intros B E c okF okE HM V conv junk upd hdr first cap e0 ops Hj Hf He Hr Hu Hsp Hok Hs.
  destruct (memoryless_library _ _ _ _ HM) as [HL Hst]. pose proof (library_lawful _ _ _ _ HL) as Hlaw.
  assert (Ew : written (ops ++ [Sync]) = written ops).
  { unfold written. rewrite map_app, concat_app. cbn. now rewrite app_nil_r. }
  destruct (history_ok c conv junk upd okF okE Hlaw Hj hdr first cap e0 Hf He Hr Hst (fun _ => True) (first + extent c (zlen (written ops))) (fun f t HG _ => Hu f t (proj1 HG)) (fun _ _ _ _ _ _ => I) (fun _ _ _ _ => I) (ops ++ [Sync])
      (openWrite c hdr first cap e0) [] false) as (st & R & _ & S); auto.
  - eapply (open_hinv c junk okF okE) with (limit := first); auto.
  - now rewrite Ew.
  - rewrite Ew, zlen_nil, Z.add_0_l. exact Hs.
  - rewrite Ew, zlen_nil, Z.add_0_l. lia.
  - destruct (S ops eq_refl) as [(d & A & G & T1 & T2 & T3 & _) _]. rewrite Ew in *. cbn [app] in *. rewrite zlen_map in *. eauto 10.
Qed.
Print Assumptions C22_syncs_are_transparent_partial.

Example C22_example :
  memoryless _ (pcmW LittleEndian 2 1) (frameOf 1 (fun _ => True)) (fun _ => True) /\ updKeeps (fun f _ => f) 2 /\
  spaced false ([Write [[1]]; Sync; Write [[2]; [3]]; Write []; Sync; Write [[4]]] ++ [Sync]) /\
  smallPCM (pcmW LittleEndian 2 1) 2 4.
Proof. split; [constructor; lia|]. split; [intros f t _; reflexivity|]. split; [cbn; auto|unfold smallPCM, pcmW; lia]. Qed.

Definition steps (n : nat) : list (list Z) := map (fun i => [if Nat.even i then 20000 else 100]) (seq 0 n).

(** IMA ADPCM: the encoder's state advances over the partial block a sync writes, and is not restored.  The
    same frames written with and without a sync give different files. *)
Theorem C22_ima_sync_changes_the_audio_refuted :
  forall B : Build, exists (a b : list (list Z)) st1 st2,
    wrun (imaQTW 1) (fun x => x) [0] true (fun f _ => f) (openWrite (imaQTW 1) [] 0 1024 [initState]) [Write a; Write b; Sync] = Ok st1 /\
    wrun (imaQTW 1) (fun x => x) [0] true (fun f _ => f) (openWrite (imaQTW 1) [] 0 1024 [initState]) [Write a; Sync; Write b; Sync] = Ok st2 /\
    zlen (fbytes (ws_file st1)) = 34 /\ zlen (fbytes (ws_file st2)) = 34 /\
    fbytes (ws_file st1) <> fbytes (ws_file st2) /\
    rmap fst (decodeBlockQT 64 1 (fbytes (ws_file st1))) <> rmap fst (decodeBlockQT 64 1 (fbytes (ws_file st2))).
Proof.
  intros B. exists (firstn 32 (steps 64)), (skipn 32 (steps 64)). do 2 eexists. split; [vm_compute; reflexivity|]. split; [vm_compute; reflexivity|].
  split; [vm_compute; reflexivity|]. split; [vm_compute; reflexivity|]. split; vm_compute; congruence.
Qed.
Print Assumptions C22_ima_sync_changes_the_audio_refuted.

(** Two syncs in a row (afSyncFile then afCloseFile, which syncs again): the library does not go back to the
    audio data after updating the header.  With assertions the process stops; this holds for every
    codec of fixed frame size and every header update that leaves the file elsewhere than at the end of the data. *)
Theorem C22_second_sync_aborts_refuted :
  forall E p bpf (enc : list Z -> list Z) okF okE, library E (WPerFrame p bpf enc) okF okE ->
  forall (V : Type) (conv : V -> list Z) junk upd hdr first cap e0 (ws : list (list V)),
    okF junk -> 0 <= first -> okE e0 -> Forall okF (map conv (concat ws)) -> smallPCM (WPerFrame (E := E) p bpf enc) first (zlen (concat ws)) ->
    (forall f t, fpos (upd f t) < first) ->
    wrun (B := Debug) (WPerFrame p bpf enc) conv junk true upd (openWrite (WPerFrame p bpf enc) hdr first cap e0) (map Write ws ++ [Sync; Sync]) = Abort.
Proof.
  intros E p bpf enc okF okE HL V conv junk upd hdr first cap e0 ws Hj Hf He Hok Hs Hu. pose proof (library_lawful _ _ _ _ HL) as Hlaw.
  destruct (writes_sync (B := Debug) (WPerFrame p bpf enc) conv junk upd okF okE Hlaw Hj hdr first cap e0 Hf He I ws Hok) as (d & st & A & R & T & Fi).
  replace (map Write ws ++ [Sync; Sync]) with ((map Write ws ++ [Sync]) ++ [Sync]) by (rewrite <- app_assoc; reflexivity).
  rewrite wrun_app, R. cbn [rbind wrun wstep]. unfold afSyncFile, modulesSync, fileSync1, fileSync2, rassert. cbn [w_nextpos].
  rewrite T, Fi. unfold finalTrack. cbn [w_nextpos]. cbn [audio] in A. injection A as Ad.
  destruct Hlaw as [Hb Hl].
  assert (Ld : zlen d = bpf * zlen (concat ws)).
  { rewrite <- Ad. rewrite (zlen_chunk_frames _ bpf); [now rewrite !zlen_map|]. apply Forall_map. eapply Forall_impl; [|exact Hok]. exact Hl. }
  pose proof (zlen_nonneg (concat ws)). assert (0 <= zlen d) by nia.
  assert (Ei : inInt p (first + zlen d) = first + zlen d).
  { unfold inInt. destruct p; [|reflexivity]. unfold smallPCM in Hs. apply sN_small; [lia|]. change (2 ^ (32 - 1)) with (2 ^ 31). lia. }
  rewrite Ei. match goal with |- context [upd ?f ?t] => specialize (Hu f t); set (u := upd f t) in * end. unfold ftell.
  replace (negb true || (fpos u =? first + zlen d)) with false by (cbn [negb orb]; lia). reflexivity.
Qed.
Print Assumptions C22_second_sync_aborts_refuted.

(** Without assertions (the build the makefiles make), a block codec writes its partial block at the place the
    header update left the file: into the header.  The update here writes four bytes at offset 4, as
    WAVEFile::update does last (WAVE.cpp:1263-1266). *)
Definition riffLength (f : file) (t : wtrack) : file := fwrite (fseek f 4) (le_bytes 4 (flength f - 8)).
Theorem C22_second_sync_destroys_the_header_refuted :
  exists hdr st1 st2,
    wrun (B := Release) (imaWAVEW 1) (fun x => x) [0] true riffLength (openWrite (imaWAVEW 1) hdr 60 1024 [initState]) [Write (ramp 100); Sync] = Ok st1 /\
    wrun (B := Release) (imaWAVEW 1) (fun x => x) [0] true riffLength (openWrite (imaWAVEW 1) hdr 60 1024 [initState]) [Write (ramp 100); Sync; Sync] = Ok st2 /\
    region (fbytes (ws_file st1)) 8 52 = region hdr 8 52 /\
    region (fbytes (ws_file st2)) 8 52 <> region hdr 8 52 /\
    region (fbytes (ws_file st2)) 8 256 = region (fbytes (ws_file st1)) 60 256 /\
    wrun (B := Debug) (imaWAVEW 1) (fun x => x) [0] true riffLength (openWrite (imaWAVEW 1) hdr 60 1024 [initState]) [Write (ramp 100); Sync; Sync] = Abort.
Proof.
  exists (repeat 77 60). do 2 eexists. split; [vm_compute; reflexivity|]. split; [vm_compute; reflexivity|].
  split; [vm_compute; reflexivity|]. split; [vm_compute; congruence|]. split; vm_compute; reflexivity.
Qed.
Print Assumptions C22_second_sync_destroys_the_header_refuted.

(** ** C27 *)

(** PCM: after a sync the track's position is the end of the data as long as that is below 2 GiB; G.711
    and the block codecs are not limited. *)
Theorem C27_sync_keeps_the_position_partial :
  forall (B : Build) E p bpf (enc : list Z -> list Z) okF okE, library E (WPerFrame p bpf enc) okF okE ->
  forall (V : Type) (conv : V -> list Z) junk upd hdr first cap e0 (ws : list (list V)),
    okF junk -> 0 <= first -> okE e0 -> Forall okF (map conv (concat ws)) -> (p = true -> first + bpf * zlen (concat ws) < 2 ^ 31) ->
    exists st, wrun (WPerFrame p bpf enc) conv junk true upd (openWrite (WPerFrame p bpf enc) hdr first cap e0) (map Write ws ++ [Sync]) = Ok st /\
      w_nextpos (ws_track st) = first + bpf * zlen (concat ws) /\ w_nextf (ws_track st) = zlen (concat ws).
Proof.
  intros B E p bpf enc okF okE HL V conv junk upd hdr first cap e0 ws Hj Hf He Hok Hs. pose proof (library_lawful _ _ _ _ HL) as Hlaw.
  destruct (writes_sync (WPerFrame p bpf enc) conv junk upd okF okE Hlaw Hj hdr first cap e0 Hf He I ws Hok) as (d & st & A & R & T & _).
  exists st. split; [exact R|]. rewrite T. unfold finalTrack. cbn [w_nextpos w_nextf]. cbn [audio] in A. injection A as Ad.
  destruct Hlaw as [Hb Hl].
  assert (Ld : zlen d = bpf * zlen (concat ws)).
  { rewrite <- Ad. rewrite (zlen_chunk_frames _ bpf); [now rewrite !zlen_map|]. apply Forall_map. eapply Forall_impl; [|exact Hok]. exact Hl. }
  pose proof (zlen_nonneg (concat ws)). rewrite Ld, zlen_map. unfold inInt. destruct p; [|auto]. specialize (Hs eq_refl).
  change (2 ^ 31) with (2 ^ (32 - 1)) in Hs. split; apply sN_small; nia.
Qed.
Print Assumptions C27_sync_keeps_the_position_partial.

(** Every PCM file whose data ends at or beyond 2 GiB loses its position at a sync: the next frames would go
    elsewhere. *)
Theorem C27_large_pcm_file_refuted :
  forall (B : Build) E bpf (enc : list Z -> list Z) okF okE, library E (WPerFrame true bpf enc) okF okE ->
  forall (V : Type) (conv : V -> list Z) junk upd hdr first cap e0 (ws : list (list V)),
    okF junk -> 0 <= first -> okE e0 -> Forall okF (map conv (concat ws)) -> 2 ^ 31 <= first + bpf * zlen (concat ws) ->
    exists st, wrun (WPerFrame true bpf enc) conv junk true upd (openWrite (WPerFrame true bpf enc) hdr first cap e0) (map Write ws ++ [Sync]) = Ok st /\
      w_nextpos (ws_track st) < first + bpf * zlen (concat ws).
Proof.
  intros B E bpf enc okF okE HL V conv junk upd hdr first cap e0 ws Hj Hf He Hok Hs. pose proof (library_lawful _ _ _ _ HL) as Hlaw.
  destruct (writes_sync (WPerFrame true bpf enc) conv junk upd okF okE Hlaw Hj hdr first cap e0 Hf He I ws Hok) as (d & st & A & R & T & _).
  exists st. split; [exact R|]. rewrite T. unfold finalTrack. cbn [w_nextpos w_nextf]. cbn [audio] in A. injection A as Ad.
  destruct Hlaw as [Hb Hl].
  assert (Ld : zlen d = bpf * zlen (concat ws)).
  { rewrite <- Ad. rewrite (zlen_chunk_frames _ bpf); [now rewrite !zlen_map|]. apply Forall_map. eapply Forall_impl; [|exact Hok]. exact Hl. }
  rewrite Ld. unfold inInt. pose proof (sN_range 32 (first + bpf * zlen (concat ws)) ltac:(lia)) as H. change (32 - 1) with 31 in H. unfold s32. lia.
Qed.
Print Assumptions C27_large_pcm_file_refuted.

(** The hypotheses of the refutation are met, for instance by a raw file whose data offset the application set
    to 2^31: one sample written, and the position is negative. *)
Example C27_example :
  exists st, wrun (B := Release) (V := list Z) (pcmW LittleEndian 2 1) (fun x => x) [0] true (fun f _ => f)
      (mkWS (mkFile [] 2147483646) (mkWT 2147483646 0 0 2147483646 0 0 0 0 (-1) (-1)) tt (Rebuffer.rebInitPush 1) []) [Write []; Sync] = Ok st /\
    w_nextpos (ws_track st) = 2147483646 /\ s32 2147483648 = -2147483648.
Proof. eexists. split; [vm_compute; reflexivity|]. split; vm_compute; reflexivity. Qed.

(** ** C53 *)

(** A crash: what is on disk is, byte for byte, some state the file had at a call boundary since the sync
    (each write may or may not have reached the disk, in any order, torn at any byte).  The file does not
    become shorter. *)
Definition crashImage {E} (B : Build) (c : wcodec (list Z) E) {V} (conv : V -> list Z) junk upd st (ws : list (list V)) (X : list Z) : Prop :=
  zlen (fbytes (ws_file st)) <= zlen X /\
  forall i x, nth_error X i = Some x -> exists ws1 ws2 st1, ws = ws1 ++ ws2 /\
    wrun c conv junk true upd st (map Write ws1) = Ok st1 /\ nth_error (fbytes (ws_file st1)) i = Some x.

Lemma nth_error_zfirstn {A} (l : list A) n i : Z.of_nat i < n -> nth_error (zfirstn n l) i = nth_error l i.
Proof.
  intros H. unfold zfirstn. assert (Hm : (i < Z.to_nat n)%nat) by lia. clear H. revert i l Hm.
  induction (Z.to_nat n) as [|k IH]; intros i l Hm; [lia|]. destruct l; [now destruct i|]. destruct i; [reflexivity|]. cbn [nth_error firstn]. apply IH. lia.
Qed.
Lemma zfirstn_ext {A} (l l' : list A) n : n <= zlen l -> n <= zlen l' ->
  (forall i, Z.of_nat i < n -> nth_error l i = nth_error l' i) -> zfirstn n l = zfirstn n l'.
Proof.
  intros H1 H2 H. unfold zfirstn. assert (N : (Z.to_nat n <= length l)%nat /\ (Z.to_nat n <= length l')%nat) by (unfold zlen in *; lia).
  assert (H' : forall i, (i < Z.to_nat n)%nat -> nth_error l i = nth_error l' i) by (intros; apply H; lia).
  clear H H1 H2. revert l l' N H'. induction (Z.to_nat n) as [|k IH]; intros l l' N H'; [reflexivity|].
  destruct l as [|a l], l' as [|b l']; cbn [length] in N; try lia. cbn [firstn].
  pose proof (H' O ltac:(lia)) as H0. cbn in H0. injection H0 as <-. f_equal. apply IH; [lia|]. intros i Hi. apply (H' (S i)). lia.
Qed.

(** After any history of writes and syncs ending with a sync, and a crash at any later point while writing:
    the header area and the bytes of all frames (of all complete blocks, for a block codec) written before the
    sync are as the sync left them.  Missing: the last, incomplete block, which later writes replace in place, and
    chunks stored after the audio data. *)
Theorem C53_crash_keeps_synced_frames_partial :
  forall (B : Build) E c okF okE, memoryless E c okF okE ->
  forall (V : Type) (conv : V -> list Z) junk upd hdr first cap e0 (ops : list wop) (ws : list (list V)),
    okF junk -> 0 <= first -> okE e0 -> room c cap -> updKeeps upd first ->
    spaced false (ops ++ [Sync]) -> Forall okF (map conv (written ops)) -> Forall okF (map conv (concat ws)) ->
    smallPCM c first (zlen (written ops)) ->
    exists st d, wrun c conv junk true upd (openWrite c hdr first cap e0) (ops ++ [Sync]) = Ok st /\
      audio c junk e0 (map conv (written ops)) = Ok d /\ region (fbytes (ws_file st)) first (zlen d) = d /\
      forall X, crashImage B c conv junk upd st ws X ->
        let safe := match c with
                    | WPerFrame _ _ _ => first + zlen d
                    | WBlocks fpp bpp _ => first + bpp * (zlen (written ops) / fpp)
                    end in
        first < zlen (fbytes (ws_file st)) -> zfirstn safe X = zfirstn safe (fbytes (ws_file st)).
Proof.
  intros B E c okF okE HM V conv junk upd hdr first cap e0 ops ws Hj Hf He Hr Hu Hsp Hok Hws Hs.
  destruct (memoryless_library _ _ _ _ HM) as [HL Hst]. pose proof (library_lawful _ _ _ _ HL) as Hlaw.
  assert (Ew : written (ops ++ [Sync]) = written ops).
  { unfold written. rewrite map_app, concat_app. cbn. now rewrite app_nil_r. }
  destruct (history_ok c conv junk upd okF okE Hlaw Hj hdr first cap e0 Hf He Hr Hst (fun _ => True) (first + extent c (zlen (written ops))) (fun f t HG _ => Hu f t (proj1 HG)) (fun _ _ _ _ _ _ => I) (fun _ _ _ _ => I) (ops ++ [Sync])
      (openWrite c hdr first cap e0) [] false) as (st & R & _ & S); auto.
  - eapply (open_hinv c junk okF okE) with (limit := first); auto.
  - now rewrite Ew.
  - rewrite Ew, zlen_nil, Z.add_0_l. exact Hs.
  - rewrite Ew, zlen_nil, Z.add_0_l. lia.
  - destruct (S ops eq_refl) as [(d & A & G & T1 & T2 & T3 & _) [HI _]]. rewrite Ew in *. cbn [app] in *. rewrite zlen_map in *.
    exists st, d. split; [exact R|]. split; [exact A|]. split; [exact G|]. intros X [HX1 HX2] Hlen. set (safe := match c with WPerFrame _ _ _ => _ | WBlocks _ _ _ => _ end).
    assert (K : exists k, w_nextpos (ws_track st) = k /\ safe <= k /\ safe <= zlen (fbytes (ws_file st)) /\ 0 <= k).
    { destruct (writes_after c conv junk upd okF okE Hlaw Hj first cap e0 Hf Hr (fun _ => True) 0 (fun _ _ _ _ _ _ => I) st _ [] HI ltac:(constructor)) as (st' & d' & _ & _ & D & dd & EF & NP & RG & pl & Eall & Hpl).
      exists (w_nextpos (ws_track st)). split; [reflexivity|]. pose proof (zlen_nonneg dd).
      assert (Hfit : first + zlen dd <= zlen (fbytes (ws_file st))).
      { destruct dd as [|y dd]; [rewrite zlen_nil; lia|]. apply region_fits; auto. discriminate. }
      assert (Hsafe : safe <= first + zlen dd); [|lia]. subst safe. unfold encFull in EF. cbn [audio] in A. unfold audio in A.
      destruct c as [p bpf enc|fpp bpp encB].
      + destruct EF as [-> _]. subst pl. rewrite app_nil_r in Eall. rewrite <- Eall in *. injection A as <-. lia.
      + destruct EF as (m & Lm & _ & Ld). rewrite Ld. destruct Hlaw as (B1 & B2 & _).
        assert (Lw : zlen (written ops) = zlen D + zlen pl) by (rewrite <- (zlen_map conv), Eall, zlen_app; reflexivity).
        pose proof (zlen_nonneg pl). rewrite Lw, Lm. replace (fpp * Z.of_nat m + zlen pl) with (Z.of_nat m * fpp + zlen pl) by lia.
        rewrite Z.div_add_l, (Z.div_small (zlen pl)) by lia. lia. }
    destruct K as (k & NP & Hk & Hl & Hk0).
    apply zfirstn_ext; [lia|lia|]. intros i Hi.
    destruct (nth_error X i) as [x|] eqn:Ex.
    + destruct (HX2 i x Ex) as (ws1 & ws2 & st1 & Ews & R1 & N1).
      assert (F1 : Forall okF (map conv (concat ws1))).
      { rewrite Ews, concat_app, map_app in Hws. now apply Forall_app in Hws. }
      destruct (writes_after c conv junk upd okF okE Hlaw Hj first cap e0 Hf Hr (fun _ => True) 0 (fun _ _ _ _ _ _ => I) st _ ws1 HI F1) as (st' & d' & R2 & Ef & _).
      rewrite R1 in R2. injection R2 as <-. rewrite <- N1, Ef.
      rewrite <- (nth_error_zfirstn _ safe i) by lia. rewrite ow_prefix by lia. apply nth_error_zfirstn; lia.
    + apply nth_error_None in Ex. unfold zlen in *. lia.
Qed.
Print Assumptions C53_crash_keeps_synced_frames_partial.

(** A crash that lost the first of two later writes but kept the second; the synced part is intact. *)
Example C53_example (B : Build) :
  exists st, wrun (pcmW LittleEndian 2 1) (fun x => x) [0] true (fun f _ => f) (openWrite (pcmW LittleEndian 2 1) [7; 7] 2 1024 tt) [Write [[1]; [2]]; Sync] = Ok st /\
    crashImage B (pcmW LittleEndian 2 1) (fun x => x) [0] (fun f _ => f) st [[[258]]; [[772]]] [7; 7; 1; 0; 2; 0; 2; 1; 4; 3].
Proof.
  eexists. split; [vm_compute; reflexivity|]. split; [vm_compute; congruence|]. intros i x H.
  exists [[[258]]; [[772]]], []. eexists. split; [reflexivity|]. split; [vm_compute; reflexivity|].
  do 10 (destruct i as [|i]; [exact H|]). destruct i; discriminate.
Qed.
