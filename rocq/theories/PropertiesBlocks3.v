(** * C37: CAF files of IMA ADPCM, written and read back *)
From Verif Require Import Prelude PreludeFacts ByteOrder FileIO Reader ReaderSpec PropertiesReader.
From Verif Require Import Writer WriterSpec WriterProofs WriterHistory Codecs CodecsProofs RoundTripProofs PropertiesWriter PropertiesRoundTrip HeaderIO FileRoundTrip BlockFiles.
From Verif Require Import IMA IMASpec IMAProofs.
From Verif Require Import Float FloatBits PacketTable CAF PropertiesCAF.

(** The file re-opens with everything, but the frames that complete the last packet are counted too: the count is rounded
    up to a multiple of 64 ([C37_caf_ima_frame_count_refuted]). *)
Theorem C37_caf_ima_roundtrip_partial :
  forall (B : Build) host rate (ch : nat), validD rate = true -> (1 <= ch)%nat -> 34 * Z.of_nat ch < 2 ^ 31 ->
  let fm := mkFmt rate TwosComp 16 (Z.of_nat ch) host CIMA 64 (34 * Z.of_nat ch) in
  forall (V W : Type) (conv : V -> list Z) (back : list Z -> W) junk cap e0 (ws : list (list V)),
    let written := zlen (concat ws) in let total := 64 * ((written + 63) / 64) in let size := 34 * Z.of_nat ch * ((written + 63) / 64) in
    length junk = ch -> imaStates ch e0 -> 64 <= cap -> Forall (fun v => length (conv v) = ch) (concat ws) -> total < 2 ^ 62 -> size < 2 ^ 62 ->
    exists st recs, wrun (imaQTW ch) conv junk true cafUpdate (openWrite (imaQTW ch) (cafInit fm) cafFirst cap e0) (map Write ws ++ [Sync]) = Ok st /\
      recons (encodeBlockQT 64) imaQTblock e0 (cut (length (concat ws)) 64 (zrepeat junk 64) (map conv (concat ws))) recs /\
      zlen (concat recs) = total /\
      cafRecognize (mkFile (fbytes (ws_file st)) 0) = true /\
      (forall fuel, (2 <= fuel)%nat -> exists f', cafOpen host fuel (mkFile (fbytes (ws_file st)) 0) = Ok (Some (mkParsed fm 68 size total, f'))) /\
      readsAs B (imaQTR ch) back (fbytes (ws_file st)) 68 total (map back (concat recs)).
Proof.
  intros B host rate ch Hr Hc1 Hc2 fm V W conv back junk cap e0 ws written total size Hj He Hcap Hok Ht Hs.
  assert (Hf : cafFmt host rate fm) by (apply (CF_ima host rate fm (Z.of_nat ch)); auto; lia).
  assert (Hfr : forall l : list Z, length l = ch -> frameOf (Z.of_nat ch) (fun _ => True) l).
  { intros l Hl. split; [unfold zlen; lia|apply Forall_forall; auto]. }
  pose proof (pair_imaqt ch ltac:(lia)) as HP. assert (Ebp : imaQT_bpp ch = 34 * Z.of_nat ch) by (unfold imaQT_bpp; lia).
  pose proof (zlen_nonneg (concat ws) : 0 <= written) as Zt.
  assert (Es : size = imaQT_bpp ch * ((written + 64 - 1) / 64)) by (unfold size; rewrite Ebp; do 2 f_equal; lia).
  assert (Hw : 0 <= (written + 63) / 64) by (apply Z.div_pos; lia).
  assert (Hsz : 0 <= size) by (unfold size; nia).
  destruct (blocks_file (W := W) B _ _ _ _ _ _ _ _ HP conv back junk cafUpdate (cafInit fm) cafFirst cap e0 ws)
    as (st & d & recs & R1 & Ld & Ef & T0 & T1 & T2 & T3 & HR & Lr & RD); auto.
  { unfold cafFirst; lia. }
  { eapply Forall_impl; [|exact Hok]. cbn. auto. }
  fold written in Ld, Ef, T1, T2, T3, Lr, RD. rewrite <- Es in *.
  replace (64 * ((written + 64 - 1) / 64)) with total in Lr by (unfold total; do 2 f_equal; lia).
  exists st, recs. split; [exact R1|]. split; [exact HR|]. split; [exact Lr|].
  set (f0 := mkFile (overwrite (cafInit fm) cafFirst d) (cafFirst + size)) in *.
  assert (HF : cafFront fm (cafFirst + size) (fbytes f0)).
  { destruct (caf_front fm size 0 Hsz) as [W1 _ W3]. unfold f0. cbn [fbytes]. apply W1; [lia|lia|exact W3]. }
  destruct HF as (mid & rest & Lm & E & Lb).
  pose proof (caf_updated fm f0 (ws_track st) mid rest Lm E) as EU. rewrite <- Ef, T2 in EU.
  assert (L0 : zlen (fbytes (ws_file st)) = 68 + zlen rest) by (rewrite EU, !zlen_app, cafPre_len, cafData_len; lia).
  assert (G : region (fbytes (ws_file st)) cafFirst size = d).
  { rewrite Ef. pose proof (caf_updKeeps f0 (ws_track st) T0) as K. cbv beta in K. rewrite T3 in K. replace (cafFirst + size - cafFirst) with size in K by lia.
    rewrite K. unfold f0. cbn [fbytes]. rewrite <- Ld. apply ow_region_data. unfold cafFirst; lia. }
  assert (L1 : zlen (fbytes (ws_file st)) <= 68 + size) by (rewrite E, !zlen_app, cafPre_len, Lm in Lb; unfold cafFirst in Lb; lia).
  assert (Lz : zlen (fbytes (ws_file st)) = 68 + size).
  { destruct (Z.eq_dec size 0) as [Z0|Hn]; [pose proof (zlen_nonneg rest); lia|].
    enough (cafFirst + size <= zlen (fbytes (ws_file st))) by (unfold cafFirst in *; lia). rewrite <- Ld. apply region_fits; [unfold cafFirst; lia| |rewrite Ld; exact G]. intros ->. change (zlen (@nil Z)) with 0 in Ld. lia. }
  split; [rewrite EU; unfold cafPre; rewrite <- !app_assoc; reflexivity|]. split.
  - intros fuel Hfu. destruct (caf_read_header B host rate fm size (fbytes (ws_file st)) rest fuel Hf Hr EU Lz ltac:(lia) Hfu) as (f' & RH).
    exists f'. rewrite RH. enough (EC : computeTotal 0 size fm = total) by (rewrite EC; reflexivity). clear RH f'. unfold computeTotal. cbn [fm f_bpp f_fpp]. change (64 =? 0) with false. replace (34 * Z.of_nat ch =? 0) with false by lia. cbn [orb].
    change (2 ^ 62) with 4611686018427387904 in *. unfold u64, s64. rewrite (uN_small 64 size) by (change (2 ^ 64) with 18446744073709551616; lia).
    unfold size at 1. rewrite (Z.mul_comm (34 * Z.of_nat ch)), Z.div_mul by lia. rewrite Z.mul_comm. fold total.
    rewrite uN_small by (change (2 ^ 64) with 18446744073709551616; unfold total; lia). rewrite sN_small; [reflexivity|lia|]. change (2 ^ (64 - 1)) with 9223372036854775808. unfold total in *; lia.
  - assert (EZ : zfirstn total (concat recs) = concat recs) by (rewrite <- Lr; unfold zfirstn, zlen; rewrite Nat2Z.id; apply firstn_all).
    rewrite <- EZ. apply RD; [exact G|unfold cafFirst; pose proof (zlen_nonneg rest); lia|]. rewrite Lr. unfold total. lia.
Qed.
Print Assumptions C37_caf_ima_roundtrip_partial.

Example C37_ima_example :
  validD cafRate = true /\ imaStates 2 [initState; initState] /\ Forall (fun v => length v = 2%nat) (concat [[[1; 2]; [3; 4]]; [[5; 6]]]).
Proof. split; [vm_compute; reflexivity|]. split; [split; [reflexivity|repeat constructor; vm_compute; congruence]|]. repeat constructor. Qed.
