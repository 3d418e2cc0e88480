(** * C36: AIFF-C files of IMA ADPCM, written and read back *)
From Verif Require Import Prelude PreludeFacts ByteOrder FileIO Reader ReaderSpec PropertiesReader.
From Verif Require Import Writer WriterSpec WriterProofs WriterHistory Codecs CodecsProofs RoundTripProofs PropertiesWriter PropertiesRoundTrip HeaderIO FileRoundTrip BlockFiles.
From Verif Require Import IMA IMASpec IMAProofs.
From Verif Require Import Chunks Float Extended PropertiesExtended AIFF PropertiesAIFF.

(** The file re-opens with everything, except that only whole packets are counted: the frames of an incomplete last
    packet are lost ([C36_aifc_ima_frame_count_refuted]). *)
Theorem C36_aifc_ima_roundtrip_partial :
  forall (B : Build) host s m e (ch : nat), let rate := S754_finite s m e in validD rate = true -> (1 <= ch)%nat -> Z.of_nat ch < 2 ^ 16 ->
  let fm := mkFmt rate TwosComp 16 (Z.of_nat ch) host CIMA 64 (34 * Z.of_nat ch) in
  forall x0 (xs : wtrack -> aextra), validExtra x0 -> (forall t, validExtra (xs t) /\ sameLayout x0 (xs t)) ->
  forall (V W : Type) (conv : V -> list Z) (back : list Z -> W) junk cap e0 (ws : list (list V)),
    let first := aiffFirst true fm x0 in let written := zlen (concat ws) in let total := 64 * (written / 64) in let size := 34 * Z.of_nat ch * ((written + 63) / 64) in
    length junk = ch -> imaStates ch e0 -> 64 <= cap -> Forall (fun v => length (conv v) = ch) (concat ws) -> first + size <= 2 ^ 32 - 24 ->
    exists st recs, wrun (imaQTW ch) conv junk true (fun f t => aiffUpdate true fm (xs t) f t)
        (openWrite (imaQTW ch) (aiffInit true fm x0) first cap e0) (map Write ws ++ [Sync]) = Ok st /\
      recons (encodeBlockQT 64) imaQTblock e0 (cut (length (concat ws)) 64 (zrepeat junk 64) (map conv (concat ws))) recs /\
      aiffReopens B true host (fbytes (ws_file st)) (imaQTR ch) back fm (xs (ws_track st)) first size total (map back (zfirstn total (concat recs))).
Proof.
  intros B host s m e ch rate Hr Hc1 Hc2 fm x0 xs V0 Vx V W conv back junk cap e0 ws first written total size Hj He Hcap Hok Hs.
  apply rateOK_finite in Hr. assert (Hf : aiffFmt host rate true fm) by (constructor; lia).
  assert (Hfr : forall l : list Z, length l = ch -> frameOf (Z.of_nat ch) (fun _ => True) l).
  { intros l Hl. split; [unfold zlen; lia|apply Forall_forall; auto]. }
  pose proof (pair_imaqt ch ltac:(lia)) as HP. assert (Ebp : imaQT_bpp ch = 34 * Z.of_nat ch) by (unfold imaQT_bpp; lia).
  pose proof (zlen_nonneg (concat ws) : 0 <= written) as Zt.
  assert (H0 : 0 <= first) by (unfold first, aiffFirst; pose proof (zlen_nonneg (aiffBody true fm x0 0 0)); lia).
  assert (Es : size = imaQT_bpp ch * ((written + 64 - 1) / 64)) by (unfold size; rewrite Ebp; do 2 f_equal; lia).
  assert (Hsz : 34 * ((written + 63) / 64) <= size) by (unfold size; pose proof (Z.div_pos (written + 63) 64); nia).
  assert (Hw : 0 <= (written + 63) / 64) by (apply Z.div_pos; lia).
  destruct (blocks_file (W := W) B _ _ _ _ _ _ _ _ HP conv back junk (fun f t => aiffUpdate true fm (xs t) f t) (aiffInit true fm x0) first cap e0 ws)
    as (st & d & recs & R1 & Ld & Ef & T0 & T1 & T2 & T3 & HR & Lr & RD); auto.
  { eapply Forall_impl; [|exact Hok]. cbn. auto. }
  fold written in Ld, Ef, T1, T2, T3, Lr, RD. rewrite <- Es in *.
  exists st, recs. split; [exact R1|]. split; [exact HR|].
  set (f0 := mkFile (overwrite (aiffInit true fm x0) first d) (first + size)) in *.
  assert (HF : aiffFront true (zlen (aiffBody true fm x0 0 0)) (first + size) (fbytes f0)).
  { destruct (aiff_front host rate true fm x0 xs (first + size) 0 Hf V0 Vx ltac:(fold first; lia)) as [W1 _ W3]. unfold f0. cbn [fbytes]. apply W1; [fold first; lia|lia|exact W3]. }
  assert (L0 : first <= zlen (fbytes (ws_file st))) by (rewrite Ef; exact (aiff_updated_len host rate true fm x0 xs _ f0 (ws_track st) Hf V0 Vx HF)).
  assert (G : region (fbytes (ws_file st)) first size = d).
  { rewrite Ef. pose proof (aiff_keeps host rate true fm x0 xs Hf V0 Vx f0 (ws_track st) T0) as K. cbv beta in K. rewrite T3 in K. fold first in K. replace (first + size - first) with size in K by lia.
    rewrite K. unfold f0. cbn [fbytes]. rewrite <- Ld. now apply ow_region_data. }
  change (2 ^ 32) with 4294967296 in *.
  change total with (foundTotal fm written).
  apply (aiff_conclude B host rate true fm x0 xs (imaQTR ch) back size written _ f0 (ws_file st) (ws_track st)); auto; fold first.
  - lia.
  - change (2 ^ 63) with 9223372036854775808. lia.
  - unfold counted. cbn [fm f_comp]. change (2 ^ 32) with 4294967296. lia.
  - destruct (Z.eq_dec size 0) as [->|Hn]; [lia|]. rewrite <- Ld. apply region_fits; [exact H0| |rewrite Ld; exact G]. intros ->. change (zlen (@nil Z)) with 0 in Ld. lia.
  - apply RD; [exact G|exact L0|]. rewrite Lr. change (foundTotal fm written) with total. unfold total. split; [lia|]. lia.
Qed.
Print Assumptions C36_aifc_ima_roundtrip_partial.

Example C36_ima_example :
  let rate := ex44100 in validD rate = true /\ validExtra (exExtra 5 [88; 89; 90]) /\ sameLayout (exExtra 0 [0; 0; 0]) (exExtra 5 [88; 89; 90]) /\
  imaStates 2 [initState; initState] /\ Forall (fun v => length v = 2%nat) (concat [[[1; 2]; [3; 4]]; [[5; 6]]]).
Proof.
  split; [vm_compute; reflexivity|]. split.
  { unfold validExtra, exExtra. cbn [ax_marks ax_inst ax_aes ax_misc]. split.
    { constructor; [|constructor; [|constructor]]; unfold validMark; cbn [am_id am_pos am_name]; change (2 ^ 16) with 65536; change (2 ^ 32) with 4294967296; repeat split; try lia; vm_compute; congruence. }
    split; [reflexivity|]. split; [unfold validInst, exInst; cbn; lia|]. split; [intros d [= <-]; reflexivity|]. repeat constructor; cbn [fst]; lia. }
  split; [repeat split|]. split; [split; [reflexivity|repeat constructor; vm_compute; congruence]|]. repeat constructor.
Qed.
