(** * C35, C36, C37: ADPCM files, written and read back *)
From Verif Require Import Prelude PreludeFacts ByteOrder FileIO Reader ReaderSpec PropertiesReader.
From Verif Require Import Writer WriterSpec WriterProofs WriterHistory Codecs CodecsProofs RoundTripProofs PropertiesWriter PropertiesRoundTrip HeaderIO FileRoundTrip BlockFiles.
From Verif Require Import IMA IMASpec IMAProofs.
From Verif Require MSADPCM MSADPCMSpec.
From Verif Require Import VOC WAVE PropertiesWAVE.

(** ** WAVE *)
Lemma wave_blocks {V W} (B : Build) host fm x0 (xs : wtrack -> wextra) fb E r fpp bpp (encB : E -> list (list Z) -> res (list Z * E)) okF okE R :
  blockPair r fpp bpp encB okF okE R -> waveFmt host fm -> hasFact fm = true -> fmtBytes fm = Ok fb ->
  validExtra x0 -> (forall t, validExtra (xs t) /\ sameLayout x0 (xs t)) ->
  forall (conv : V -> list Z) (back : list Z -> W) junk cap e0 (ws : list (list V)),
    let first := waveFirst fb fm x0 in let total := zlen (concat ws) in let size := bpp * ((total + fpp - 1) / fpp) in
    okF junk -> okE e0 -> fpp <= cap -> Forall (fun v => okF (conv v)) (concat ws) -> total < 2 ^ 32 -> first + size <= 2 ^ 32 - 24 ->
    exists st recs, wrun (WBlocks fpp bpp encB) conv junk true (fun f t => waveUpdate fb fm x0 (xs t) f t)
        (openWrite (WBlocks fpp bpp encB) (waveInit fb fm x0) first cap e0) (map Write ws ++ [Sync]) = Ok st /\
      recons encB R e0 (cut (length (concat ws)) fpp (zrepeat junk fpp) (map conv (concat ws))) recs /\
      waveReopens B host (fbytes (ws_file st)) r back fm (xs (ws_track st)) first size total (map back (zfirstn total (concat recs))).
Proof.
  intros HB Hf Hfa Efb V0 Vx conv back junk cap e0 ws first total size Hj He Hcap Hok Ht Hs.
  pose proof HB as (decB & _ & (B1 & B2 & _) & _).
  pose proof (zlen_nonneg (concat ws) : 0 <= total) as Zt.
  assert (H0 : 0 <= first) by (unfold first, waveFirst; pose proof (zlen_nonneg (waveBody fb fm x0 0 0)); lia).
  assert (Hsz : 0 <= size) by (unfold size; apply Z.mul_nonneg_nonneg; [lia|apply Z.div_pos; lia]).
  destruct (blocks_file (W := W) B E r fpp bpp encB okF okE R HB conv back junk (fun f t => waveUpdate fb fm x0 (xs t) f t) (waveInit fb fm x0) first cap e0 ws Hj H0 He Hcap Hok)
    as (st & d & recs & R1 & Ld & Ef & T0 & T1 & T2 & T3 & HR & Lr & RD).
  fold total size in Ld, Ef, T1, T2, T3, Lr, RD.
  exists st, recs. split; [exact R1|]. split; [exact HR|].
  set (f0 := mkFile (overwrite (waveInit fb fm x0) first d) (first + size)) in *.
  assert (HF : waveFront fb fm x0 (first + size) (fbytes f0)).
  { destruct (wave_front fb fm x0 xs (first + size) 0 V0 Vx ltac:(fold first; lia)) as [W1 _ W3]. unfold f0. cbn [fbytes]. apply W1; [fold first; lia|lia|exact W3]. }
  assert (L0 : first <= zlen (fbytes (ws_file st))) by (rewrite Ef; exact (wave_updated_len fb fm x0 xs _ f0 (ws_track st) V0 Vx HF)).
  assert (G : region (fbytes (ws_file st)) first size = d).
  { rewrite Ef. pose proof (wave_keeps fb fm x0 xs V0 Vx f0 (ws_track st) T0) as K. cbv beta in K. rewrite T3 in K. fold first in K. replace (first + size - first) with size in K by lia.
    rewrite K. unfold f0. cbn [fbytes]. rewrite <- Ld. now apply ow_region_data. }
  apply (wave_conclude B host fm fb x0 xs r back size total _ f0 (ws_file st) (ws_track st)); auto; fold first.
  - intros H. congruence.
  - destruct (Z.eq_dec size 0) as [->|Hn]; [lia|]. rewrite <- Ld. apply region_fits; [exact H0| |rewrite Ld; exact G]. intros ->. change (zlen (@nil Z)) with 0 in Ld. lia.
  - apply RD; [exact G|exact L0|]. rewrite Lr. split; [exact Zt|].
    pose proof (Z.mod_pos_bound (total + fpp - 1) fpp B1). pose proof (Z.div_mod (total + fpp - 1) fpp ltac:(lia)). lia.
Qed.

(** The frames are the reconstruction, block after block, of what was written ([C13], [C17] say how far that is from
    the original); the last block is completed with older samples, of which nothing is read. *)
Theorem C35_wave_ima_roundtrip_partial :
  forall (B : Build) host rate (ch : nat), (1 <= ch < 256)%nat -> 0 <= rate -> rate * Z.of_nat ch < 2 ^ 32 ->
  forall x0 (xs : wtrack -> wextra), validExtra x0 -> (forall t, validExtra (xs t) /\ sameLayout x0 (xs t)) ->
  let fm := mkFmt rate TwosComp 16 (Z.of_nat ch) host CIMA 505 (256 * Z.of_nat ch) in
  exists fb, fmtBytes fm = Ok fb /\
  forall (V W : Type) (conv : V -> list Z) (back : list Z -> W) junk cap e0 (ws : list (list V)),
    let first := waveFirst fb fm x0 in let total := zlen (concat ws) in let size := 256 * Z.of_nat ch * ((total + 504) / 505) in
    length junk = ch -> imaStates ch e0 -> 505 <= cap -> Forall (fun v => length (conv v) = ch) (concat ws) -> total < 2 ^ 32 -> first + size <= 2 ^ 32 - 24 ->
    exists st recs, wrun (imaWAVEW ch) conv junk true (fun f t => waveUpdate fb fm x0 (xs t) f t)
        (openWrite (imaWAVEW ch) (waveInit fb fm x0) first cap e0) (map Write ws ++ [Sync]) = Ok st /\
      recons (encodeBlockWAVE 505) imaWAVEblock e0 (cut (length (concat ws)) 505 (zrepeat junk 505) (map conv (concat ws))) recs /\
      waveReopens B host (fbytes (ws_file st)) (imaWAVER ch) back fm (xs (ws_track st)) first size total (map back (zfirstn total (concat recs))).
Proof.
  intros B host rate ch Hc Hr Hrc x0 xs V0 Vx fm.
  assert (Hf : waveFmt host fm) by (apply (WF_ima host _ (Z.of_nat ch) rate); auto; change (2 ^ 8) with 256; lia).
  destruct (wave_fmt host fm Hf) as (cs & content & Efb & _). exists (T_fmt ++ le4 cs ++ content). split; [exact Efb|].
  set (fb := T_fmt ++ le4 cs ++ content) in *. clearbody fb.
  intros V W conv back junk cap e0 ws first total size Hj He Hcap Hok Ht Hs.
  assert (Hfr : forall l : list Z, length l = ch -> frameOf (Z.of_nat ch) (fun _ => True) l).
  { intros l Hl. split; [unfold zlen; lia|apply Forall_forall; auto]. }
  assert (Ebp : imaWAVE_bpp ch = 256 * Z.of_nat ch) by (unfold imaWAVE_bpp; lia).
  pose proof (pair_imawave ch ltac:(lia)) as HP.
  assert (Es : size = imaWAVE_bpp ch * ((total + 505 - 1) / 505)) by (unfold size; rewrite Ebp; do 2 f_equal; lia).
  pose proof (fun H7 H8 H9 H10 H11 H12 => wave_blocks (W := W) B host fm x0 xs fb _ _ _ _ _ _ _ _ HP Hf eq_refl Efb V0 Vx conv back junk cap e0 ws H7 H8 H9 H10 H11 H12) as K.
  cbv zeta in K. fold first total in K. rewrite <- Es in K. apply K; auto.
  eapply Forall_impl; [|exact Hok]. cbn. auto.
Qed.
Print Assumptions C35_wave_ima_roundtrip_partial.

Theorem C35_wave_msadpcm_roundtrip_partial :
  forall (B : Build) host rate x0 (xs : wtrack -> wextra), 0 <= rate -> validExtra x0 -> (forall t, validExtra (xs t) /\ sameLayout x0 (xs t)) ->
  (rate < 2 ^ 32 -> let fm := mkFmt rate TwosComp 16 1 host CMSADPCM 500 256 in
   exists fb, fmtBytes fm = Ok fb /\
   forall (V W : Type) (conv : V -> list Z) (back : list Z -> W) junk cap e0 (ws : list (list V)),
    let first := waveFirst fb fm x0 in let total := zlen (concat ws) in let size := 256 * ((total + 499) / 500) in
    frameOf 1 MSADPCMSpec.s16ok junk -> length e0 = 1%nat -> 500 <= cap -> Forall (fun v => frameOf 1 MSADPCMSpec.s16ok (conv v)) (concat ws) ->
    total < 2 ^ 32 -> first + size <= 2 ^ 32 - 24 ->
    exists st recs, wrun ms1W conv junk true (fun f t => waveUpdate fb fm x0 (xs t) f t) (openWrite ms1W (waveInit fb fm x0) first cap e0) (map Write ws ++ [Sync]) = Ok st /\
      recons ms1Enc ms1block e0 (cut (length (concat ws)) 500 (zrepeat junk 500) (map conv (concat ws))) recs /\
      waveReopens B host (fbytes (ws_file st)) ms1R back fm (xs (ws_track st)) first size total (map back (zfirstn total (concat recs)))) /\
  (rate * 2 < 2 ^ 32 -> let fm := mkFmt rate TwosComp 16 2 host CMSADPCM 500 512 in
   exists fb, fmtBytes fm = Ok fb /\
   forall (V W : Type) (conv : V -> list Z) (back : list Z -> W) junk cap e0 (ws : list (list V)),
    let first := waveFirst fb fm x0 in let total := zlen (concat ws) in let size := 512 * ((total + 499) / 500) in
    frameOf 2 MSADPCMSpec.s16ok junk -> length e0 = 2%nat -> 500 <= cap -> Forall (fun v => frameOf 2 MSADPCMSpec.s16ok (conv v)) (concat ws) ->
    total < 2 ^ 32 -> first + size <= 2 ^ 32 - 24 ->
    exists st recs, wrun ms2W conv junk true (fun f t => waveUpdate fb fm x0 (xs t) f t) (openWrite ms2W (waveInit fb fm x0) first cap e0) (map Write ws ++ [Sync]) = Ok st /\
      recons ms2Enc ms2block e0 (cut (length (concat ws)) 500 (zrepeat junk 500) (map conv (concat ws))) recs /\
      waveReopens B host (fbytes (ws_file st)) ms2R back fm (xs (ws_track st)) first size total (map back (zfirstn total (concat recs)))).
Proof.
  intros B host rate x0 xs Hr V0 Vx. split; intros Hrc fm.
  - assert (Hf : waveFmt host fm) by (apply (WF_ms host _ 1 rate); auto; lia).
    destruct (wave_fmt host fm Hf) as (cs & content & Efb & _). exists (T_fmt ++ le4 cs ++ content). split; [exact Efb|].
    set (fb := T_fmt ++ le4 cs ++ content) in *. clearbody fb.
    intros V W conv back junk cap e0 ws first total size Hj He Hcap Hok Ht Hs.
    assert (Es : size = 256 * ((total + 500 - 1) / 500)) by (unfold size; do 2 f_equal; lia).
    pose proof (fun H7 H8 H9 H10 H11 H12 => wave_blocks (W := W) B host fm x0 xs fb _ _ _ _ _ _ _ _ pair_ms1 Hf eq_refl Efb V0 Vx conv back junk cap e0 ws H7 H8 H9 H10 H11 H12) as K.
    cbv zeta in K. fold first total in K. rewrite <- Es in K. apply K; auto.
  - assert (Hf : waveFmt host fm) by (apply (WF_ms host _ 2 rate); auto; lia).
    destruct (wave_fmt host fm Hf) as (cs & content & Efb & _). exists (T_fmt ++ le4 cs ++ content). split; [exact Efb|].
    set (fb := T_fmt ++ le4 cs ++ content) in *. clearbody fb.
    intros V W conv back junk cap e0 ws first total size Hj He Hcap Hok Ht Hs.
    assert (Es : size = 512 * ((total + 500 - 1) / 500)) by (unfold size; do 2 f_equal; lia).
    pose proof (fun H7 H8 H9 H10 H11 H12 => wave_blocks (W := W) B host fm x0 xs fb _ _ _ _ _ _ _ _ pair_ms2 Hf eq_refl Efb V0 Vx conv back junk cap e0 ws H7 H8 H9 H10 H11 H12) as K.
    cbv zeta in K. fold first total in K. rewrite <- Es in K. apply K; auto.
Qed.
Print Assumptions C35_wave_msadpcm_roundtrip_partial.

Example C35_adpcm_example :
  validExtra (exExtra 0 [0; 0; 0]) /\ validExtra (exExtra 5 [88; 89; 90]) /\ sameLayout (exExtra 0 [0; 0; 0]) (exExtra 5 [88; 89; 90]) /\
  imaStates 2 [initState; initState] /\ Forall (fun v => length v = 2%nat) (concat [[[1; 2]; [3; 4]]; [[5; 6]]]) /\
  frameOf 2 MSADPCMSpec.s16ok [0; 0] /\ Forall (frameOf 2 MSADPCMSpec.s16ok) (concat [[[1; 2]; [3; -32768]]; [[32767; 6]]]).
Proof.
  split; [apply exExtra_valid; lia|]. split; [apply exExtra_valid; lia|]. split; [split; reflexivity|].
  split; [split; [reflexivity|repeat constructor; vm_compute; congruence]|]. split; [repeat constructor|].
  split; [split; [reflexivity|repeat constructor; unfold MSADPCMSpec.s16ok; lia]|]. repeat constructor; unfold MSADPCMSpec.s16ok; lia.
Qed.
