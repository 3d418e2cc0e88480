(** * Whole files of block codecs (ADPCM): what one pass of writes, followed by a sync or a close, leaves *)
From Verif Require Import Prelude PreludeFacts FileIO Reader ReaderSpec ReaderProofs PropertiesReader.
From Verif Require Import Writer WriterSpec WriterProofs WriterHistory Codecs CodecsProofs RoundTripProofs PropertiesWriter PropertiesRoundTrip.
From Verif Require Import IMA IMASpec IMAProofs.
From Verif Require MSADPCM MSADPCMSpec MSADPCMProofs PropertiesMSADPCM.

(** A block encoder and a decoder of its blocks: a block decodes to the reconstruction [R] of what was encoded. *)
Definition blockPair {E} (r : codec (list Z)) fpp bpp (encB : E -> list (list Z) -> res (list Z * E)) okF okE (R : E -> list (list Z) -> list (list Z) -> Prop) : Prop :=
  exists decB, r = Blocks fpp bpp decB /\ lawful (WBlocks fpp bpp encB) okF okE /\
  forall e b d e', okE e -> zlen b = fpp -> Forall okF b -> encB e b = Ok (d, e') -> exists r, decB d = Ok r /\ zlen r = fpp /\ R e b r.

Lemma pair_imaqt ch : (1 <= ch)%nat ->
  blockPair (imaQTR ch) 64 (imaQT_bpp ch) (encodeBlockQT 64) (frameOf (Z.of_nat ch) (fun _ => True)) (imaStates ch) imaQTblock.
Proof.
  intros Hc. eexists. split; [reflexivity|]. split; [exact (library_lawful _ _ _ _ (L_imaqt ch Hc))|].
  intros e b d e' [Le Ge] Lb Fb E1. pose proof (frames_of_frameOf _ _ _ Fb) as Hfr. rewrite <- Le in Hfr.
  destruct (blockQT_lockstep 32 e b [] Ge Hfr) as (d0 & E2 & D & L & _).
  { unfold zlen in Lb. lia. }
  change (2 * Z.of_nat 32) with imaQT_fpp in E2, D. change 64 with imaQT_fpp in E1. rewrite E1 in E2. injection E2 as -> _. rewrite app_nil_r in D. rewrite Le in D.
  eexists. rewrite D. split; [reflexivity|]. cbn [fst]. split; [|reflexivity]. unfold zlen. rewrite reconFrames_length. exact Lb.
Qed.

Lemma pair_imawave ch : (1 <= ch)%nat ->
  blockPair (imaWAVER ch) 505 (imaWAVE_bpp ch) (encodeBlockWAVE 505) (frameOf (Z.of_nat ch) (fun _ => True)) (imaStates ch) imaWAVEblock.
Proof.
  intros Hc. eexists. split; [reflexivity|]. split; [exact (library_lawful _ _ _ _ (L_imawave ch Hc))|].
  intros e b d e' [Le Ge] Lb Fb E1. pose proof (frames_of_frameOf _ _ _ Fb) as Hfr. rewrite <- Le in Hfr.
  assert (Lb' : length b = 505%nat) by (unfold zlen in Lb; lia).
  destruct (blockWAVE_lockstep 63 e b [] Ge Hfr) as (d0 & E2 & D & L & _); [lia|].
  change (8 * Z.of_nat 63 + 1) with imaWAVE_fpp in E2, D. change 505 with imaWAVE_fpp in E1. rewrite E1 in E2. injection E2 as -> _. rewrite app_nil_r in D. rewrite Le in D.
  eexists. rewrite D. split; [reflexivity|]. cbn [fst]. split; [|reflexivity]. unfold zlen. cbn [length]. rewrite reconFrames_length, firstn_length, Lb'. reflexivity.
Qed.

Lemma pair_ms1 {B : Build} : blockPair ms1R 500 256 ms1Enc (frameOf 1 MSADPCMSpec.s16ok) (msStates 1) ms1block.
Proof.
  eexists. split; [reflexivity|]. split; [exact (library_lawful _ _ _ _ L_ms1)|].
  intros e b d e' Le Lb Fb E1. unfold ms1Enc in E1. destruct e as [|st [|]]; try discriminate.
  destruct (concat_mono _ _ Fb) as (L & Fc & _).
  destruct (MSADPCMProofs.block1_lockstep (B := B) MSADPCM.defaultCoefficients st (concat b) 249) as (d0 & st' & i & dl & c & x0 & x1 & l & Ec & E2 & Ea & Hd & D & _);
    auto using PropertiesMSADPCM.defaultCoefficients_ok; try discriminate; try lia.
  { unfold zlen in *. lia. }
  rewrite E2 in E1. cbn [rbind] in E1. injection E1 as -> _. rewrite D. cbn [rmap rbind]. eexists. split; [reflexivity|].
  assert (Lc : zlen (concat b) = 500) by lia. rewrite Ec, !zlen_cons in Lc. split.
  - rewrite zlen_map, !zlen_cons. unfold zlen in *. rewrite mrecon_length. lia.
  - exists i, dl, c, x0, x1, l. split; [exact Ea|]. split; [exact Hd|]. split; [exact Ec|].
    assert (Q : forall l : list Z, concat (map (fun x => [x]) l) = l) by (induction l0 as [|y l0 IH]; [reflexivity|cbn; now rewrite IH]). apply Q.
Qed.

Lemma pair_ms2 {B : Build} : blockPair ms2R 500 512 ms2Enc (frameOf 2 MSADPCMSpec.s16ok) (msStates 2) ms2block.
Proof.
  eexists. split; [reflexivity|]. split; [exact (library_lawful _ _ _ _ L_ms2)|].
  intros e b d e' Le Lb Fb E1. unfold ms2Enc in E1. destruct e as [|sl [|sr [|]]]; try discriminate.
  destruct (concat_stereo _ _ Fb) as (Ec & F0 & F1).
  assert (L : forall k, length (chan k b) = 500%nat) by (intros k; unfold chan; rewrite map_length; unfold zlen in Lb; lia).
  destruct (MSADPCMProofs.block2_lockstep (B := B) MSADPCM.defaultCoefficients sl sr (chan 0 b) (chan 1 b) 498)
    as (d0 & sl' & sr' & i & j & dl & dr & cl & cr & l0 & l1 & l & r0 & r1 & r & El & Er & E2 & Ea1 & Ea2 & Hd1 & Hd2 & D & _);
    auto using PropertiesMSADPCM.defaultCoefficients_ok; try discriminate; try lia; try (rewrite L; reflexivity).
  rewrite Ec, E2 in E1. cbn [rbind] in E1. injection E1 as -> _. rewrite D. cbn [rmap rbind]. eexists. split; [reflexivity|].
  pose proof (L 0%nat) as L0. pose proof (L 1%nat) as L1. rewrite El in L0. rewrite Er in L1. cbn [length] in L0, L1.
  destruct (zip2_chan (l0 :: l1 :: MSADPCMSpec.mrecon cl (MSADPCM.mkMs i dl l1 l0) l) (r0 :: r1 :: MSADPCMSpec.mrecon cr (MSADPCM.mkMs j dr r1 r0) r)) as (Z1 & C0 & C1).
  { cbn [length]. rewrite !mrecon_length. lia. }
  split; [rewrite Z1, !zlen_cons; unfold zlen; rewrite mrecon_length; lia|].
  intros [|[|k]] Hk; [| |lia].
  - exists i, dl, cl, l0, l1, l. auto.
  - exists j, dr, cr, r0, r1, r. auto.
Qed.

(** What the writes leave: the header updated once, for a track of whole blocks; and the frames read from the file
    ([more] frames of the last block can be asked for: some headers only record whole blocks). *)
Lemma blocks_file {V W} (B : Build) E r fpp bpp (encB : E -> list (list Z) -> res (list Z * E)) okF okE R :
  blockPair r fpp bpp encB okF okE R ->
  forall (conv : V -> list Z) (back : list Z -> W) junk upd hdr first cap e0 (ws : list (list V)),
    okF junk -> 0 <= first -> okE e0 -> fpp <= cap -> Forall (fun v => okF (conv v)) (concat ws) ->
    let total := zlen (concat ws) in let size := bpp * ((total + fpp - 1) / fpp) in
    exists st d recs, wrun (WBlocks fpp bpp encB) conv junk true upd (openWrite (WBlocks fpp bpp encB) hdr first cap e0) (map Write ws ++ [Sync]) = Ok st /\
      zlen d = size /\ ws_file st = upd (mkFile (overwrite hdr first d) (first + size)) (ws_track st) /\
      w_first (ws_track st) = first /\ w_totalf (ws_track st) = total /\ w_dsize (ws_track st) = size /\ w_after (ws_track st) = first + size /\
      recons encB R e0 (cut (length (concat ws)) fpp (zrepeat junk fpp) (map conv (concat ws))) recs /\
      zlen (concat recs) = fpp * ((total + fpp - 1) / fpp) /\
      (region (fbytes (ws_file st)) first size = d -> first <= zlen (fbytes (ws_file st)) ->
       forall n, 0 <= n <= zlen (concat recs) ->
       readsAs B r back (fbytes (ws_file st)) first n (map back (zfirstn n (concat recs)))).
Proof.
  intros (decB & -> & Hlaw & Hdec) conv back junk upd hdr first cap e0 ws Hj Hf He Hcap Hok total size.
  assert (Hok1 : Forall okF (map conv (concat ws))) by (now apply Forall_map).
  destruct (writes_sync (B := B) (WBlocks fpp bpp encB) conv junk upd okF okE Hlaw Hj hdr first cap e0 Hf He Hcap ws Hok1) as (d & st & A & R1 & T & Fi).
  rewrite <- T in Fi. pose proof Hlaw as (B1 & B2 & _). unfold audio in A.
  set (l := map conv (concat ws)) in *. assert (Ll : zlen l = total) by (unfold l; now rewrite zlen_map).
  destruct (encode_decode_blocks fpp bpp encB decB okF okE R Hlaw Hdec (cut (length l) fpp (zrepeat junk fpp) l) e0 He) as (ds & recs & E1 & F1 & L1 & M1 & G1 & R2).
  { apply cut_good; auto; [apply zlen_repeat; lia|]. apply Forall_forall. intros x Hx. apply repeat_spec in Hx. now subst. }
  rewrite E1 in A. injection A as Ad. pose proof (zlen_chunk_frames _ _ F1) as Hz. rewrite Ad in Hz.
  pose proof (cut_count fpp (zrepeat junk fpp) l B1 (length l) (le_n _)) as Hcc. rewrite Ll in Hcc.
  assert (Ln : zlen ds = (total + fpp - 1) / fpp) by (rewrite <- Hcc; unfold zlen; lia). rewrite Ln in Hz. fold size in Hz.
  exists st, d, recs. split; [exact R1|]. split; [exact Hz|]. rewrite Hz in Fi. split; [exact Fi|].
  assert (T0 : w_first (ws_track st) = first) by (now rewrite T).
  assert (T1 : w_totalf (ws_track st) = total) by (rewrite T; cbn [finalTrack w_totalf]; exact Ll).
  assert (T2 : w_dsize (ws_track st) = size) by (rewrite T; cbn [finalTrack w_dsize]; exact Hz).
  assert (T3 : w_after (ws_track st) = first + size) by (rewrite T; cbn [finalTrack w_after]; lia).
  do 4 (split; [assumption|]). assert (Lw : length (concat ws) = length l) by (unfold l; now rewrite map_length). split; [rewrite Lw; exact R2|].
  assert (Lr : zlen recs = zlen ds).
  { clear - M1. revert recs M1. induction ds as [|x ds IH]; intros recs M1; cbn [rmapM] in M1; [injection M1 as <-; reflexivity|].
    destruct (decB x); try discriminate. cbn [rbind] in M1. destruct (rmapM decB ds) as [rs| | |]; try discriminate. cbn [rbind] in M1. injection M1 as <-. rewrite !zlen_cons. now rewrite (IH rs eq_refl). }
  assert (Lc : zlen (concat recs) = fpp * ((total + fpp - 1) / fpp)) by (rewrite (zlen_chunk_frames _ _ G1), Lr, Ln; reflexivity).
  split; [exact Lc|]. intros Hr Hfit n Hn. apply holds_readsAs. unfold holds. split; [lia|]. split; [lia|].
  split; [lia|]. split; [lia|]. exists (length ds), recs. rewrite <- Hz, <- Ad in Hr.
  split.
  - destruct ds as [|d0 ds]; [cbn [length]; lia|].
    pose proof (region_fits (fbytes (ws_file st)) first (concat (d0 :: ds)) ltac:(lia)) as Hft.
    rewrite (zlen_chunk_frames _ _ F1) in Hft. fold (zlen (d0 :: ds)). apply Hft.
    + intros E0. rewrite <- Ad, E0 in Hz. apply Forall_cons_iff in F1. destruct F1 as [F1 _]. cbn [concat] in E0. apply app_eq_nil in E0. destruct E0 as [-> _]. change (zlen (@nil Z)) with 0 in F1. lia.
    + rewrite (zlen_chunk_frames _ _ F1) in Hr. exact Hr.
  - split; [rewrite (region_chunks ds bpp (fbytes (ws_file st)) first); [exact M1|lia|exact F1|exact Hr]|]. split; [exact G1|].
    split; [fold (zlen ds); lia|reflexivity].
Qed.
