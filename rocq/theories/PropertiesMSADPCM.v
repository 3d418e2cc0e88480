(** * Properties of MS ADPCM (C17-C19) *)
From Verif Require Import Prelude PreludeFacts MSADPCM MSADPCMSpec MSADPCMProofs.

(** The coefficients the library writes are small enough for every bound below. *)
Lemma defaultCoefficients_ok : Forall coefOk defaultCoefficients.
Proof. unfold defaultCoefficients. repeat (apply Forall_cons; [unfold coefOk; cbn [fst snd]; lia|]). apply Forall_nil. Qed.

(** ** C17 *)

(** One sample, any state and coefficients: whenever the encoder's step is defined, the decoder given the
    emitted code reaches the same state and outputs the encoder's reconstruction. *)
Theorem C17_sample_lockstep :
  forall st x c code st', encodeSample st x c = Ok (code, st') -> decodeSample st code c = Ok (sample1 st', st').
Proof. exact encode_decode. Qed.
Print Assumptions C17_sample_lockstep.

(** Mono blocks of 2+2n frames (n >= 2), for any coefficient table that cannot overflow. *)
Theorem C17_mono_block :
  forall (B : Build) coefs st x0 x1 rest n,
    Forall coefOk coefs -> coefs <> [] -> zlen coefs <= 256 ->
    Forall s16ok (x0 :: x1 :: rest) -> length rest = (2 * n)%nat -> (2 <= n)%nat ->
    exists bytes st' start c,
      encodeBlock1 coefs st (x0 :: x1 :: rest) = Ok (bytes, st') /\ length bytes = (7 + n)%nat /\ bytes_ok bytes = true /\
      sample1 start = x1 /\ sample2 start = x0 /\ 16 <= delta start <= 32768 /\ aget coefs (predictorIndex start) = Ok c /\
      decodeBlock1 coefs n bytes = Ok (x0 :: x1 :: mrecon c start rest) /\
      length (mrecon c start rest) = length rest /\ Forall s16ok (mrecon c start rest).
Proof.
  intros B coefs st x0 x1 rest n Hc Hne Hl Hs Hr Hn.
  destruct (block1_lockstep coefs st (x0 :: x1 :: rest) n) as (bytes & st' & i & e & c & y0 & y1 & r & E & EB & EC & HE & DB & F & L & Bo & _);
    auto; [cbn; lia|]. inversion E; subst.
  exists bytes, st', (mkMs i e y1 y0), c. cbn [sample1 sample2 delta predictorIndex]. repeat (split; [assumption || reflexivity || lia|]).
  split; [apply mrecon_length|assumption].
Qed.
Print Assumptions C17_mono_block.

(** Stereo blocks of 2+n frames. *)
Theorem C17_stereo_block :
  forall (B : Build) coefs sl sr l0 l1 l r0 r1 r n,
    Forall coefOk coefs -> coefs <> [] -> zlen coefs <= 256 ->
    Forall s16ok (l0 :: l1 :: l) -> Forall s16ok (r0 :: r1 :: r) -> length l = n -> length r = n -> (3 <= n)%nat ->
    exists bytes sl' sr' startL startR cl cr,
      encodeBlock2 coefs sl sr (zip2 (l0 :: l1 :: l) (r0 :: r1 :: r)) = Ok (bytes, sl', sr') /\
      length bytes = (14 + n)%nat /\ bytes_ok bytes = true /\
      sample1 startL = l1 /\ sample2 startL = l0 /\ 16 <= delta startL <= 32768 /\ aget coefs (predictorIndex startL) = Ok cl /\
      sample1 startR = r1 /\ sample2 startR = r0 /\ 16 <= delta startR <= 32768 /\ aget coefs (predictorIndex startR) = Ok cr /\
      decodeBlock2 coefs n bytes = Ok (zip2 (l0 :: l1 :: mrecon cl startL l) (r0 :: r1 :: mrecon cr startR r)) /\
      Forall s16ok (mrecon cl startL l) /\ Forall s16ok (mrecon cr startR r).
Proof.
  intros B coefs sl sr l0 l1 l r0 r1 r n Hc Hne Hlen Hl Hr Ll Lr Hn.
  destruct (block2_lockstep coefs sl sr (l0 :: l1 :: l) (r0 :: r1 :: r) n)
    as (bytes & sl' & sr' & i & j & d & e & cl & cr & a0 & a1 & a & b0 & b1 & b & E1 & E2 & EB & ECl & ECr & Hd & He & DB & F1 & F2 & L & Bo);
    auto; try (cbn [length]; lia). inversion E1; subst. inversion E2; subst.
  exists bytes, sl', sr', (mkMs i d a1 a0), (mkMs j e b1 b0), cl, cr. cbn [sample1 sample2 delta predictorIndex].
  repeat (split; [assumption || reflexivity || lia|]). assumption.
Qed.
Print Assumptions C17_stereo_block.

(** What the reconstruction is: each sample is reproduced with an error of at most half the current step
    plus one, as long as the exact quotient fits the 4-bit code and the result does not clip. *)
Theorem C17_reconstruction_error :
  forall st x c p, 16 <= delta st <= 65535 -> predict st c = Ok p -> -98304 <= p <= 98304 -> s16ok x ->
    -7 * delta st <= x - p <= 7 * delta st ->
    exists code st', encodeSample st x c = Ok (code, st') /\ 2 * Z.abs (sample1 st' - x) <= delta st.
Proof. exact reconstruction_error. Qed.
Print Assumptions C17_reconstruction_error.

(** The library's own parameters: 500 frames in 256 bytes per channel. *)
Theorem C17_library_block_sizes :
  forall st sl sr,
    (forall x0 x1 rest, Forall s16ok (x0 :: x1 :: rest) -> zlen (x0 :: x1 :: rest) = msadpcm_fpp ->
       exists bytes st', encodeBlock1 defaultCoefficients st (x0 :: x1 :: rest) = Ok (bytes, st') /\ zlen bytes = msadpcm_bpp 1) /\
    (forall l r, Forall s16ok l -> Forall s16ok r -> zlen l = msadpcm_fpp -> zlen r = msadpcm_fpp ->
       exists bytes sl' sr', encodeBlock2 defaultCoefficients sl sr (zip2 l r) = Ok (bytes, sl', sr') /\ zlen bytes = msadpcm_bpp 2).
Proof.
  intros st sl sr. split.
  - intros x0 x1 rest Hs Hl.
    destruct (C17_mono_block Debug defaultCoefficients st x0 x1 rest 249) as (bytes & st' & _ & _ & E & L & _); auto using defaultCoefficients_ok;
      try discriminate; try (unfold zlen, msadpcm_fpp in *; cbn [length defaultCoefficients] in *; lia).
    exists bytes, st'. split; [exact E|]. unfold zlen. rewrite L. reflexivity.
  - intros l r Hl Hr Ll Lr. destruct l as [|l0 [|l1 l]]; try (vm_compute in Ll; discriminate).
    destruct r as [|r0 [|r1 r]]; try (vm_compute in Lr; discriminate).
    destruct (C17_stereo_block Debug defaultCoefficients sl sr l0 l1 l r0 r1 r 498) as (bytes & sl' & sr' & _ & _ & _ & _ & E & L & _);
      auto using defaultCoefficients_ok; try discriminate; try (unfold zlen, msadpcm_fpp in *; cbn [length defaultCoefficients] in *; lia).
    exists bytes, sl', sr'. split; [exact E|]. unfold zlen. rewrite L. reflexivity.
Qed.
Print Assumptions C17_library_block_sizes.

(** The predictor is chosen as the best of the table on the first samples of the block, and the block is
    coded with that predictor. *)
Theorem C17_best_predictor :
  forall coefs x0 x1 x2 x3 x4 st, s16ok x0 -> s16ok x1 -> s16ok x2 -> s16ok x3 -> s16ok x4 ->
    Forall coefOk coefs -> coefs <> [] -> zlen coefs <= 256 ->
    exists st' c e, choosePredictor coefs x0 x1 x2 x3 x4 st = Ok st' /\ aget coefs (predictorIndex st') = Ok c /\
      predictorError x0 x1 x2 x3 x4 c = Ok e /\ delta st' = Z.max 16 e /\
      forall c', In c' coefs -> exists e', predictorError x0 x1 x2 x3 x4 c' = Ok e' /\ e <= e'.
Proof. exact choosePredictor_best. Qed.
Print Assumptions C17_best_predictor.

Example C17_example (B : Build) :
  Forall s16ok [100; -200; 300; 4000; -32768; 32767] /\
  rmap fst (encodeBlock1 defaultCoefficients ms_init [100; -200; 300; 4000; -32768; 32767]) =
    Ok [2; 17; 12; 56; 255; 100; 0; 1; 132] /\
  decodeBlock1 defaultCoefficients 2 [2; 17; 12; 56; 255; 100; 0; 1; 132] = Ok [100; -200; 0; 2775; -19944; 29916].
Proof.
  split; [repeat (apply Forall_cons; [unfold s16ok; lia|]); apply Forall_nil|]. split; vm_compute; reflexivity.
Qed.

(** ** C18 *)
Theorem C18_encoder_never_overflows :
  forall c samples st, coefOk c -> msInv st -> delta st <= 52429 -> Forall s16ok samples ->
    let st' := fold_left (mstep c) samples st in
    msInv st' /\ 16 <= delta st' <= 52429 /\
    forall x, s16ok x -> exists code, encodeSample st' x c = Ok (code, mstep c st' x) /\ 0 <= code < 16.
Proof.
  intros c samples st Hc Hi Hd Hs.
  assert (I : inv st) by (destruct Hi as (A & B & C); unfold inv; split; [lia|auto]). clear Hi Hd.
  assert (I' : inv (fold_left (mstep c) samples st)).
  { revert st I. induction Hs as [|x xs Hx Hxs IH]; intros st I; cbn [fold_left]; auto.
    apply IH. destruct (mstep_spec st x c I Hx Hc) as (_ & _ & _ & I' & _). exact I'. }
  cbv zeta. set (st' := fold_left (mstep c) samples st) in *. clearbody st'.
  destruct I' as (D & S1 & S2). split; [unfold msInv; split; [lia|auto]|]. split; [exact D|].
  intros x Hx. destruct (mstep_spec st' x c (conj D (conj S1 S2)) Hx Hc) as (code & E & B & _). eauto.
Qed.
Print Assumptions C18_encoder_never_overflows.

(** Whole blocks: [encodeBlock1] and [encodeBlock2] are defined on every block of 16-bit samples. *)
Theorem C18_blocks_defined :
  forall coefs st, Forall coefOk coefs -> coefs <> [] -> zlen coefs <= 256 ->
    (forall samples n, Forall s16ok samples -> length samples = (2 + 2 * n)%nat -> (2 <= n)%nat ->
       exists bytes st', encodeBlock1 coefs st samples = Ok (bytes, st')) /\
    (forall sr l r n, Forall s16ok l -> Forall s16ok r -> length l = (2 + n)%nat -> length r = (2 + n)%nat -> (3 <= n)%nat ->
       exists bytes sl' sr', encodeBlock2 coefs st sr (zip2 l r) = Ok (bytes, sl', sr')).
Proof.
  intros coefs st Hc Hne Hl. split.
  - intros samples n Hs L Hn. destruct (block1_lockstep (B := Debug) coefs st samples n) as (b & st' & _ & _ & _ & _ & _ & _ & _ & E & _); eauto.
  - intros sr l r n Hsl Hsr Ll Lr Hn.
    destruct (block2_lockstep (B := Debug) coefs st sr l r n) as (b & sl' & sr' & _ & _ & _ & _ & _ & _ & _ & _ & _ & _ & _ & _ & _ & _ & E & _); eauto.
Qed.
Print Assumptions C18_blocks_defined.

Example C18_example : msInv ms_init /\ delta (fold_left (mstep (512, -256)) [32767; -32768; 32767; -32768; 32767] ms_init) = 1964.
Proof. split; [unfold msInv, s16ok; cbn; lia|vm_compute; reflexivity]. Qed.

(** ** C19 *)

(** A block of a file with the standard coefficients whose header has the largest step and whose codes are
    all 8: the step triples until [delta * 768] overflows. *)
Theorem C19_decoder_overflow_refuted :
  forall B : Build, ~ (forall block, bytes_ok block = true -> zlen block = msadpcm_bpp 1 ->
       exists l, decodeBlock1 defaultCoefficients 249 block = Ok l).
Proof.
  intros B H. destruct (H ([0; 255; 255; 0; 0; 0; 0] ++ repeat 136 249)) as (l & E); [reflexivity|reflexivity|].
  vm_compute in E. discriminate.
Qed.
Print Assumptions C19_decoder_overflow_refuted.

(** A block whose predictor index is not below the number of coefficients stops the process, or, without
    assertions, decodes with coefficients the file never gave (an entry of the table that was not filled in). *)
Theorem C19_predictor_index_unchecked_refuted :
  forall coefs n i rest, zlen coefs <= i -> (6 <= length rest)%nat ->
    decodeBlock1 (B := Debug) coefs n (i :: rest) = Abort /\ decodeBlock1 (B := Release) coefs n (i :: rest) = UB.
Proof.
  intros coefs n i rest Hi Hr. do 6 (destruct rest as [|? rest]; [cbn in Hr; lia|]).
  cbn [decodeBlock1]. unfold rassert. replace (i <? zlen coefs) with false by lia. split; [reflexivity|].
  cbn [asserting Release rbind]. unfold aget. pose proof (zlen_nonneg coefs). destruct (Z.ltb_spec i 0); [lia|].
  replace (nth_error coefs (Z.to_nat i)) with (@None (Z * Z)); [reflexivity|]. symmetry. apply nth_error_None. unfold zlen in Hi. lia.
Qed.
Print Assumptions C19_predictor_index_unchecked_refuted.

(** What does hold: memory accesses stay in the block and arithmetic is defined as long as the step does
    not exceed 2796202; a block header can hold any step up to 65535, so the first four samples of each
    channel are always safe, and a sample is safe if its codes never enlarge the step. *)
Theorem C19_sample_defined_partial :
  forall st code c, 0 <= code < 16 -> coefOk c -> 0 <= delta st <= 2796202 -> s16ok (sample1 st) -> s16ok (sample2 st) ->
    exists st', decodeSample st code c = Ok (sample1 st', st') /\ s16ok (sample1 st') /\ sample2 st' = sample1 st /\
      16 <= delta st' <= Z.max 16 (3 * delta st).
Proof. exact decode_defined. Qed.
Print Assumptions C19_sample_defined_partial.

Theorem C19_samples_defined_partial :
  forall c, coefOk c -> forall codes st, Forall (fun k => 0 <= k < 16) codes -> s16ok (sample1 st) -> s16ok (sample2 st) ->
    0 <= delta st -> Z.max 16 (delta st) * 3 ^ zlen codes <= 3 * 2796202 ->
    exists l st', decodeCodes c st codes = Ok (l, st') /\ length l = length codes /\ Forall s16ok l.
Proof. exact decodeCodes_defined. Qed.
Print Assumptions C19_samples_defined_partial.

Example C19_example : Z.max 16 (delta (mkMs 0 65535 0 0)) * 3 ^ zlen [8; 8; 8; 8] <= 3 * 2796202.
Proof. vm_compute. discriminate. Qed.
