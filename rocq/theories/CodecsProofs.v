(** * The library's codecs keep their promises *)
From Verif Require Import Prelude PreludeFacts ByteOrder G711 G711Proofs FileIO Reader ReaderSpec ReaderProofs Writer WriterSpec WriterProofs Codecs.
From Verif Require Import IMA IMASpec IMAProofs PropertiesIMA PropertiesG711.
From Verif Require MSADPCM MSADPCMSpec MSADPCMProofs PropertiesMSADPCM.

(** Frames of [ch] samples satisfying [P]. *)
Definition frameOf (ch : Z) (P : Z -> Prop) (fr : list Z) : Prop := zlen fr = ch /\ Forall P fr.

Lemma concat_len_const {X A} (f : X -> list A) n l : (forall x, zlen (f x) = n) -> zlen (concat (map f l)) = n * zlen l.
Proof. intros H. induction l; cbn [map concat]; znil; [lia|]. rewrite zlen_app, zlen_cons, IHl, H. lia. Qed.

Lemma sampleBytes_len o n x : zlen (sampleBytes o n x) = Z.of_nat n.
Proof. unfold zlen, sampleBytes. destruct o; now rewrite ?be_bytes_length, ?le_bytes_length. Qed.

Lemma sample_roundtrip o n x : (1 <= n)%nat ->
  (- 2 ^ (8 * Z.of_nat n - 1) <= x < 2 ^ (8 * Z.of_nat n - 1) -> sampleOf o true n (sampleBytes o n x) = x) /\
  (0 <= x < 2 ^ (8 * Z.of_nat n) -> sampleOf o false n (sampleBytes o n x) = x).
Proof.
  intros Hn. unfold sampleOf, sampleBytes.
  assert (E : match o with BigEndian => be_val (match o with BigEndian => be_bytes n x | LittleEndian => le_bytes n x end)
                     | LittleEndian => le_val (match o with BigEndian => be_bytes n x | LittleEndian => le_bytes n x end) end = x mod 2 ^ (8 * Z.of_nat n)).
  { destruct o; [apply be_val_bytes|apply le_val_bytes]. }
  rewrite E. split; intros H.
  - unfold sN. rewrite Zplus_mod_idemp_l. fold (sN (8 * Z.of_nat n) x). apply sN_small; lia.
  - apply Z.mod_small. lia.
Qed.

Lemma chunks_concat {X} (f : X -> list Z) k l : (forall x, In x l -> zlen (f x) = k) -> 0 <= k ->
  forall rest, chunksOf (length l) k (concat (map f l) ++ rest) = map f l.
Proof.
  intros H Hk. induction l as [|x l IH]; intros rest; [reflexivity|]. cbn [length chunksOf map concat].
  rewrite <- app_assoc. pose proof (H x (or_introl eq_refl)) as Hx.
  replace (zfirstn k (f x ++ concat (map f l) ++ rest)) with (f x) by (rewrite <- Hx; symmetry; apply zfirstn_exact).
  replace (zskipn k (f x ++ concat (map f l) ++ rest)) with (concat (map f l) ++ rest) by (rewrite <- Hx; symmetry; apply zskipn_exact).
  f_equal. apply IH. intros y Hy. apply H. now right.
Qed.

Lemma Forall_map_id {A} (f : A -> A) (P : A -> Prop) l : Forall P l -> (forall x, P x -> f x = x) -> map f l = l.
Proof. intros H E. induction H as [|x l Hx Hl IH]; [reflexivity|]. cbn [map]. rewrite IH, (E x Hx). reflexivity. Qed.

Lemma pcm_frame_roundtrip o sgn n ch fr : (1 <= n)%nat ->
  frameOf ch (fun x => if sgn : bool then - 2 ^ (8 * Z.of_nat n - 1) <= x < 2 ^ (8 * Z.of_nat n - 1) else 0 <= x < 2 ^ (8 * Z.of_nat n)) fr ->
  map (sampleOf o sgn n) (chunksOf (Z.to_nat ch) (Z.of_nat n) (concat (map (sampleBytes o n) fr))) = fr.
Proof.
  intros Hn [Hl Hf]. replace (Z.to_nat ch) with (length fr) by (unfold zlen in Hl; lia).
  rewrite <- (app_nil_r (concat _)). rewrite chunks_concat; [|intros; apply sampleBytes_len|lia]. rewrite map_map.
  apply (Forall_map_id _ _ _ Hf). intros x Hx. destruct (sample_roundtrip o n x Hn) as [H1 H2]. destruct sgn; auto.
Qed.

(** ** Lawful *)
Lemma pcm_lawful o n ch : (1 <= n)%nat -> 0 < ch -> lawful (pcmW o n ch) (frameOf ch (fun _ => True)) (fun _ => True).
Proof.
  intros Hn Hc. split; [nia|]. intros fr [Hl _]. rewrite (concat_len_const _ (Z.of_nat n)); [rewrite Hl; reflexivity|]. intros; apply sampleBytes_len.
Qed.
Lemma ulaw_lawful ch : 0 < ch -> lawful (ulawW ch) (frameOf ch (fun _ => True)) (fun _ => True).
Proof. intros Hc. split; [lia|]. intros fr [Hl _]. unfold linear2ulaw_buf. now rewrite zlen_map. Qed.
Lemma alaw_lawful ch : 0 < ch -> lawful (alawW ch) (frameOf ch (fun _ => True)) (fun _ => True).
Proof. intros Hc. split; [lia|]. intros fr [Hl _]. unfold linear2alaw_buf. now rewrite zlen_map. Qed.

Definition imaStates (ch : nat) (sts : list adpcmState) : Prop := length sts = ch /\ Forall legal sts.

Lemma frames_of_frameOf ch P frames : Forall (frameOf (Z.of_nat ch) P) frames -> frames_of ch frames.
Proof. intros H. eapply Forall_impl; [|exact H]. intros fr [Hl _]. unfold zlen in Hl. lia. Qed.


Lemma imaQT_lawful ch : (1 <= ch)%nat -> lawful (imaQTW ch) (frameOf (Z.of_nat ch) (fun _ => True)) (imaStates ch).
Proof.
  intros Hc. unfold lawful, imaQTW. split; [reflexivity|]. split; [unfold imaQT_bpp; lia|].
  intros e b [Le Ge] Lb Fb. pose proof (frames_of_frameOf _ _ _ Fb) as Hf. rewrite <- Le in Hf.
  destruct (blockQT_lockstep 32 e b [] Ge Hf) as (d & E & _ & L & _).
  { unfold zlen, imaQT_fpp in Lb. lia. }
  change (2 * Z.of_nat 32) with imaQT_fpp in E. exists d; eexists. split; [exact E|]. split.
  - unfold zlen, imaQT_bpp. rewrite L, Le. lia.
  - assert (Lr : Forall legal (map roundQT e)).
    { apply Forall_forall. intros x Hx. apply in_map_iff in Hx as (y & <- & Hy). apply roundQT_legal. rewrite Forall_forall in Ge. auto. }
    split; [|now apply finalStates_legal]. rewrite finalStates_length; rewrite map_length; [exact Le|exact Hf].
Qed.

Lemma imaWAVE_lawful ch : (1 <= ch)%nat -> lawful (imaWAVEW ch) (frameOf (Z.of_nat ch) (fun _ => True)) (imaStates ch).
Proof.
  intros Hc. unfold lawful, imaWAVEW. split; [reflexivity|]. split; [unfold imaWAVE_bpp; lia|].
  intros e b [Le Ge] Lb Fb. pose proof (frames_of_frameOf _ _ _ Fb) as Hf. rewrite <- Le in Hf.
  destruct (blockWAVE_lockstep 63 e b [] Ge Hf) as (d & E & _ & L & _).
  { unfold zlen, imaWAVE_fpp in Lb. lia. }
  change (8 * Z.of_nat 63 + 1) with imaWAVE_fpp in E. exists d; eexists. split; [exact E|]. split.
  - unfold zlen, imaWAVE_bpp. rewrite L, Le. lia.
  - split; [|now apply finalStates_legal]. rewrite finalStates_length; [exact Le|]. apply (Forall_firstn _ (Z.of_nat 504) b) in Hf. unfold zfirstn in Hf. rewrite Nat2Z.id in Hf. exact Hf.
Qed.

Import MSADPCM MSADPCMSpec MSADPCMProofs PropertiesMSADPCM.

Lemma concat_mono b P : Forall (frameOf 1 P) b -> zlen (concat b) = zlen b /\ Forall P (concat b) /\ map (fun x => [x]) (concat b) = b.
Proof.
  induction 1 as [|fr b [Hl Hf] Hb IH]; [repeat split; constructor|]. destruct IH as (I1 & I2 & I3).
  destruct fr as [|x [|y fr]]; unfold zlen in Hl; cbn [length] in Hl; try lia. cbn [concat app]. split; [rewrite !zlen_cons, I1; reflexivity|].
  split; [constructor; [now inversion Hf|exact I2]|]. cbn [map]. now rewrite I3.
Qed.

Definition chan (k : nat) (b : list (list Z)) : list Z := map (fun fr => nth k fr 0) b.
Lemma concat_stereo b P : Forall (frameOf 2 P) b ->
  concat b = zip2 (chan 0 b) (chan 1 b) /\ Forall P (chan 0 b) /\ Forall P (chan 1 b).
Proof.
  induction 1 as [|fr b [Hl Hf] Hb IH]; [repeat split; constructor|]. destruct IH as (I1 & I2 & I3).
  destruct fr as [|x [|y [|z fr]]]; unfold zlen in Hl; cbn [length] in Hl; try lia.
  inversion Hf as [|? ? Px Hf']; subst. inversion Hf'; subst.
  unfold chan in *. cbn [concat app map nth zip2]. rewrite I1. split; [reflexivity|]. split; constructor; assumption.
Qed.

Definition msStates (ch : nat) (sts : list ms_state) : Prop := length sts = ch.

Lemma ms1_lawful : lawful ms1W (frameOf 1 s16ok) (msStates 1).
Proof.
  unfold lawful, ms1W, ms1Enc. split; [reflexivity|]. split; [reflexivity|]. intros e b He Lb Fb.
  destruct e as [|st [|]]; try discriminate. destruct (concat_mono _ _ Fb) as (L & Fc & _).
  destruct (block1_lockstep (B := Debug) defaultCoefficients st (concat b) 249) as (d & st' & _ & _ & _ & _ & _ & _ & _ & E & _ & _ & _ & _ & Ld & _);
    auto using defaultCoefficients_ok; try discriminate; try lia.
  { unfold zlen, msadpcm_fpp in *. lia. }
  rewrite E. cbn [rbind]. exists d, [st']. split; [reflexivity|]. split; [unfold zlen; rewrite Ld; reflexivity|reflexivity].
Qed.

Lemma ms2_lawful : lawful ms2W (frameOf 2 s16ok) (msStates 2).
Proof.
  unfold lawful, ms2W, ms2Enc. split; [reflexivity|]. split; [reflexivity|]. intros e b He Lb Fb.
  destruct e as [|sl [|sr [|]]]; try discriminate. destruct (concat_stereo _ _ Fb) as (Ec & F0 & F1).
  assert (L : forall k, length (chan k b) = 500%nat).
  { intros k. unfold chan. rewrite map_length. unfold zlen, msadpcm_fpp in Lb. lia. }
  destruct (block2_lockstep (B := Debug) defaultCoefficients sl sr (chan 0 b) (chan 1 b) 498) as (d & sl' & sr' & _ & _ & _ & _ & _ & _ & _ & _ & _ & _ & _ & _ & _ & _ & E & _ & _ & _ & _ & _ & _ & _ & Ld & _);
    auto using defaultCoefficients_ok; try discriminate; try lia; try (rewrite L; reflexivity).
  rewrite Ec, E. cbn [rbind]. exists d, [sl'; sr']. split; [reflexivity|]. split; [unfold zlen; rewrite Ld; reflexivity|reflexivity].
Qed.

(** MS ADPCM blocks do not depend on the encoder's state. *)
Lemma encodeBlock1_stateless coefs st st' l : encodeBlock1 coefs st l = encodeBlock1 coefs st' l.
Proof.
  destruct l as [|x0 [|x1 [|x2 [|x3 [|x4 l]]]]]; try reflexivity. unfold encodeBlock1, choosePredictor.
  destruct (choose x0 x1 x2 x3 x4 0 coefs 0 2147483647) as [[i e]| | |]; reflexivity.
Qed.
Lemma encodeBlock2_stateless coefs sl sr sl' sr' l : encodeBlock2 coefs sl sr l = encodeBlock2 coefs sl' sr' l.
Proof.
  destruct l as [|l0 [|r0 [|l1 [|r1 [|l2 [|r2 [|l3 [|r3 [|l4 [|r4 l]]]]]]]]]]; try reflexivity. unfold encodeBlock2, choosePredictor.
  destruct (choose l0 l1 l2 l3 l4 0 coefs 0 2147483647) as [[i e]| | |]; try reflexivity. cbn [rbind].
  destruct (choose r0 r1 r2 r3 r4 0 coefs 0 2147483647) as [[j f]| | |]; reflexivity.
Qed.
