(** * C53: formats whose files cannot be relied upon after a crash

    Five formats are read by other means than the sizes in their header, and what was written after the last sync matters when the file is
    opened again.  In each example the file is synchronised, one more write follows and the process dies after that write; the first
    line of each conclusion shows the file opening properly as it was at the sync. *)
From Verif Require Import Prelude PreludeFacts ByteOrder FileIO Reader ReaderSpec PropertiesReader.
From Verif Require Import Writer WriterSpec WriterProofs WriterHistory Codecs CodecsProofs PropertiesWriter PropertiesRoundTrip HeaderIO FileRoundTrip.
From Verif Require Import Float CAF VOC IRCAM SampleVision Raw PropertiesCrash.
From Verif Require MSADPCM PropertiesCAF PropertiesIRCAM.

(** What the example says: at the sync the file opens as [good]; after a crash [bad] holds of it. *)
Definition crashes {V E P} (B : Build) (c : wcodec (list Z) E) (conv : V -> list Z) junk upd st0 (ops : list wop) (ws : list (list V)) (open : file -> res (option (P * file))) (good : P) (bad : res (option (P * file)) -> Prop) : Prop :=
  exists st X f', wrun c conv junk true upd st0 (ops ++ [Sync]) = Ok st /\ open (mkFile (fbytes (ws_file st)) 0) = Ok (Some (good, f')) /\
    crashImage B c conv junk upd st ws X /\ bad (open (mkFile X 0)).

Lemma crashes_by {V E P} (B : Build) (c : wcodec (list Z) E) (conv : V -> list Z) junk upd st0 ops ws (open : file -> res (option (P * file))) good (bad : res (option (P * file)) -> Prop) b1 b2 f' :
  rmap (fun st => fbytes (ws_file st)) (wrun c conv junk true upd st0 (ops ++ [Sync])) = Ok b1 ->
  rmap (fun st => fbytes (ws_file st)) (wrun c conv junk true upd st0 ((ops ++ [Sync]) ++ map Write ws)) = Ok b2 -> zlen b1 <= zlen b2 ->
  open (mkFile b1 0) = Ok (Some (good, f')) -> bad (open (mkFile b2 0)) -> crashes B c conv junk upd st0 ops ws open good bad.
Proof.
  intros R1 R2 L O1 O2. rewrite wrun_app in R2. destruct (wrun c conv junk true upd st0 (ops ++ [Sync])) as [st| | |] eqn:R; try discriminate R1.
  unfold rmap, rbind in R1, R2. assert (fbytes (ws_file st) = b1) as <- by congruence.
  destruct (wrun c conv junk true upd st (map Write ws)) as [st1| | |] eqn:Q; try discriminate R2. assert (fbytes (ws_file st1) = b2) as <- by congruence.
  exists st, (fbytes (ws_file st1)), f'. split; [exact R|]. split; [exact O1|]. split; [|exact O2]. apply crash_whole; auto.
Qed.

(** CAF: the reader goes through chunks to the end of the file, whatever the size of the data chunk, so the audio written after the sync is taken for
    chunks; two bytes are too few for the header of one and the file is rejected. *)
Theorem C53_caf_after_crash_refuted :
  forall B : Build, let fm := mkFmt PropertiesCAF.cafRate TwosComp 16 1 LittleEndian CNone 1 2 in
  crashes B (pcmW LittleEndian 2 1) (fun x => x) [0] cafUpdate (openWrite (pcmW LittleEndian 2 1) (cafInit fm) cafFirst 1024 tt) [Write [[1]; [2]; [3]]] [[[4]]]
    (cafOpen LittleEndian 9) (mkParsed fm 68 6 3) (fun r => r = Ok None).
Proof.
  intros B fm. eapply crashes_by; [vm_compute; reflexivity|vm_compute; reflexivity|vm_compute; discriminate|vm_compute; reflexivity|vm_compute; reflexivity].
Qed.
Print Assumptions C53_caf_after_crash_refuted.

(** VOC: likewise, the terminator after the audio is overwritten by the next write and its samples are taken for blocks; those below look like a second block of sound. *)
Theorem C53_voc_after_crash_refuted :
  forall B : Build, let fm := mkFmt 11025 TwosComp 16 1 LittleEndian CNone 1 2 in
  crashes B (pcmW LittleEndian 2 1) (fun x => x) [0] (vocUpdate fm) (openWrite (pcmW LittleEndian 2 1) (vocInit fm) vocFirst 1024 tt) [Write [[1]; [2]; [3]]] [[[9]; [0]; [0]]]
    (vocOpen BigEndian 9) (mkParsed fm 42 6 3) (fun r => r = Ok None).
Proof.
  intros B fm. eapply crashes_by; [vm_compute; reflexivity|vm_compute; reflexivity|vm_compute; discriminate|vm_compute; reflexivity|vm_compute; reflexivity].
Qed.
Print Assumptions C53_voc_after_crash_refuted.

(** IRCAM and headerless files: the number of frames comes from the length of the file, so frames written after the sync, as far as they reached the disk, are part of the audio. *)
Theorem C53_ircam_after_crash_refuted :
  forall B : Build, exists hdr, let fm := mkFmt (toDouble PropertiesIRCAM.ex44100f) TwosComp 16 1 LittleEndian CNone 1 2 in
  ircamInit LittleEndian fm = Some hdr /\
  crashes B (pcmW LittleEndian 2 1) (fun x => x) [0] ircamUpdate (openWrite (pcmW LittleEndian 2 1) hdr ircamFirst 1024 tt) [Write [[1]; [2]; [3]]] [[[4]; [5]]]
    (ircamRead LittleEndian) (mkParsed fm 1024 6 3) (fun r => exists f', r = Ok (Some (mkParsed fm 1024 10 5, f'))).
Proof.
  intros B. eexists. cbv zeta. split; [vm_compute; reflexivity|].
  eapply crashes_by; [vm_compute; reflexivity|vm_compute; reflexivity|vm_compute; discriminate|vm_compute; reflexivity|eexists; vm_compute; reflexivity].
Qed.
Print Assumptions C53_ircam_after_crash_refuted.

Theorem C53_raw_after_crash_refuted :
  forall B : Build, let fm := mkFmt 8000 TwosComp 16 1 BigEndian CNone 0 0 in
  crashes B (pcmW BigEndian 2 1) (fun x => x) [0] rawUpdate (openWrite (pcmW BigEndian 2 1) rawInit 0 1024 tt) [Write [[1]; [2]; [3]]] [[[4]; [5]]]
    (rawRead fm None None) (mkParsed fm 0 6 3) (fun r => exists f', r = Ok (Some (mkParsed fm 0 10 5, f'))).
Proof.
  intros B fm. eapply crashes_by; [vm_compute; reflexivity|vm_compute; reflexivity|vm_compute; discriminate|vm_compute; reflexivity|eexists; vm_compute; reflexivity].
Qed.
Print Assumptions C53_raw_after_crash_refuted.

(** Sample Vision: the sample rate is kept after the audio; the next write overwrites that part of the file.  22050 Hz becomes something else. *)
Theorem C53_samplevision_after_crash_refuted :
  forall B : Build,
  crashes B (pcmW LittleEndian 2 1) (fun x => x) [0] (smpUpdate 22050) (openWrite (pcmW LittleEndian 2 1) smpInit smpFirst 1024 tt) [Write [[1]; [2]; [3]]] [map (fun _ => [7]) (repeat tt 120)]
    smpRead (mkParsed (mkFmt 22050 TwosComp 16 1 LittleEndian CNone 1 2) 116 6 3, [(203, [32]); (210, [32])])
    (fun r => exists p f', r = Ok (Some (p, f')) /\ f_rate (p_fmt (fst p)) <> 22050).
Proof.
  intros B. eapply crashes_by; [vm_compute; reflexivity|vm_compute; reflexivity|vm_compute; discriminate|vm_compute; reflexivity|].
  eexists _, _. split; [vm_compute; reflexivity|vm_compute; discriminate].
Qed.
Print Assumptions C53_samplevision_after_crash_refuted.

(** A block codec: the last, incomplete block is written by the sync and replaced as a whole when it is complete.  Here the first byte of the new block did not reach the disk:
    the third of the three synchronised frames reads as neither version of the block had it. *)
Theorem C53_last_block_after_crash_refuted :
  forall B : Build, exists (a later : list (list Z)) st X,
    let read b := crun ms1R (fun x => x) false true (openRead ms1R b 0 3) [Read 3] in
    wrun ms1W (fun x => x) [0] true (fun f _ => f) (openWrite ms1W [] 0 1024 [MSADPCM.ms_init]) [Write a; Sync] = Ok st /\ zlen a = 3 /\
    crashImage B ms1W (fun x => x) [0] (fun f _ => f) st [later] X /\
    read (fbytes (ws_file st)) = Ok [Frames [Some [100]; Some [3000]; Some [5250]]] /\
    (exists st1, wrun ms1W (fun x => x) [0] true (fun f _ => f) st [Write later] = Ok st1 /\ read (fbytes (ws_file st1)) = Ok [Frames [Some [100]; Some [3000]; Some [8832]]]) /\
    read X = Ok [Frames [Some [100]; Some [3000]; Some [5832]]].
Proof.
  intros B. exists [[100]; [3000]; [9000]], (map (fun _ => [-20000]) (repeat tt 497)).
  destruct (wrun ms1W (fun x => x) [0] true (fun f _ => f) (openWrite ms1W [] 0 1024 [MSADPCM.ms_init]) [Write [[100]; [3000]; [9000]]; Sync]) as [st| | |] eqn:R; try (destruct B; vm_compute in R; discriminate R).
  set (later := map (fun _ => [-20000]) (repeat tt 497)).
  destruct (wrun ms1W (fun x => x) [0] true (fun f _ => f) st [Write later]) as [st1| | |] eqn:R1.
  2-4: exfalso; assert (Q : wrun ms1W (fun x => x) [0] true (fun f _ => f) (openWrite ms1W [] 0 1024 [MSADPCM.ms_init]) ([Write [[100]; [3000]; [9000]]; Sync] ++ [Write later]) = do s <- Ok st; wrun ms1W (fun x => x) [0] true (fun f _ => f) s [Write later]) by (rewrite wrun_app, R; reflexivity);
    unfold rbind in Q; rewrite R1 in Q; clear - Q; apply (f_equal (fun r => match r with Ok _ => true | _ => false end)) in Q; destruct B; vm_compute in Q; discriminate Q.
  assert (E : rmap (fun s => fbytes (ws_file s)) (wrun ms1W (fun x => x) [0] true (fun f _ => f) (openWrite ms1W [] 0 1024 [MSADPCM.ms_init]) [Write [[100]; [3000]; [9000]]; Sync]) = Ok (fbytes (ws_file st))) by (rewrite R; reflexivity).
  assert (E1 : rmap (fun s => fbytes (ws_file s)) (wrun ms1W (fun x => x) [0] true (fun f _ => f) (openWrite ms1W [] 0 1024 [MSADPCM.ms_init]) ([Write [[100]; [3000]; [9000]]; Sync] ++ [Write later])) = Ok (fbytes (ws_file st1))).
  { rewrite wrun_app, R. unfold rbind at 1. rewrite R1. reflexivity. }
  exists st, (2 :: tl (fbytes (ws_file st1))). cbv zeta. split; [reflexivity|]. split; [reflexivity|].
  set (b := fbytes (ws_file st)) in *. set (b1 := fbytes (ws_file st1)) in *.
  assert (Hb : nth_error b 0 = Some 2 /\ zlen b = 256 /\ crun ms1R (fun x => x) false true (openRead ms1R b 0 3) [Read 3] = Ok [Frames [Some [100]; Some [3000]; Some [5250]]]).
  { clearbody b. clear - E.
    destruct B; vm_compute in E; match type of E with Ok ?y = _ => assert (b = y) as -> by congruence end; (split; [reflexivity|split; vm_compute; reflexivity]). }
  assert (Hb1 : zlen b1 = 256 /\ crun ms1R (fun x => x) false true (openRead ms1R b1 0 3) [Read 3] = Ok [Frames [Some [100]; Some [3000]; Some [8832]]] /\
     crun ms1R (fun x => x) false true (openRead ms1R (2 :: tl b1) 0 3) [Read 3] = Ok [Frames [Some [100]; Some [3000]; Some [5832]]]).
  { clearbody b1. clear - E1. destruct B; vm_compute in E1; match type of E1 with Ok ?y = _ => assert (b1 = y) as -> by congruence end; (split; [vm_compute; reflexivity|split; vm_compute; reflexivity]). }
  destruct Hb as (N0 & Lb & Q0). destruct Hb1 as (Lb1 & Q1 & Q2). split; [|split; [exact Q0|split; [exists st1; split; [exact R1|exact Q1]|exact Q2]]].
  split.
  - fold b. rewrite Lb. destruct b1 as [|y b1']; [discriminate Lb1|]. cbn [tl]. rewrite zlen_cons in *. lia.
  - intros [|i] x Hx.
    + exists [], [later], st. split; [reflexivity|]. split; [reflexivity|]. fold b. cbn in Hx. congruence.
    + exists [later], [], st1. split; [reflexivity|]. split; [exact R1|]. fold b1. destruct b1; [discriminate Lb1|]. exact Hx.
Qed.
Print Assumptions C53_last_block_after_crash_refuted.
