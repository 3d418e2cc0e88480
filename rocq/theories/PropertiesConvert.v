(** * Properties of byte order and integer sample conversion (C05-C11) *)
From Verif Require Import Prelude PreludeFacts ByteOrder ByteOrderProofs Convert ConvertProofs.

(** ** C05 *)

(** Swapping 2-, 4- and 8-byte quantities twice gives the quantity back. *)
Theorem C05_byteswap_involutive :
  forall n x, (n = 2 \/ n = 4 \/ n = 8)%nat -> 0 <= x < 2 ^ (8 * Z.of_nat n) ->
    byteswap n (byteswap n x) = x.
Proof. exact byteswap_involutive. Qed.
Print Assumptions C05_byteswap_involutive.

(** What reaches the file is the base-256 expansion of the value in the file's byte order, on
    either host. *)
Theorem C05_field_bytes_are_in_file_order :
  forall host fmt n x, (n = 2 \/ n = 4 \/ n = 8)%nat -> 0 <= x < 2 ^ (8 * Z.of_nat n) ->
    writeSwap host fmt n x =
    match fmt with BigEndian => be_bytes n x | LittleEndian => le_bytes n x end.
Proof. exact writeSwap_spec. Qed.
Print Assumptions C05_field_bytes_are_in_file_order.

(** A header field written on one host and read on another comes back, and reading consumes
    exactly its bytes. *)
Theorem C05_header_field_roundtrip :
  forall host_w host_r fmt n x rest, (n = 2 \/ n = 4 \/ n = 8)%nat -> 0 <= x < 2 ^ (8 * Z.of_nat n) ->
    readSwap host_r fmt n (writeSwap host_w fmt n x ++ rest) = Some (x, rest).
Proof. exact field_roundtrip. Qed.
Print Assumptions C05_header_field_roundtrip.

(** The sample swap module reverses the bytes of each sample of 2, 3, 4 or 8 bytes. *)
Theorem C05_sample_swap_reverses_bytes :
  forall host l, (length l = 2 \/ length l = 3 \/ length l = 4 \/ length l = 8)%nat ->
    bytes_ok l = true -> swap_sample host l = rev l /\ swap_sample host (swap_sample host l) = l.
Proof.
  intros host l Hl Hb. rewrite (swap_sample_rev host l) by auto.
  rewrite swap_sample_rev by (rewrite ?rev_length, ?bytes_ok_rev; auto).
  split; auto. apply rev_involutive.
Qed.
Print Assumptions C05_sample_swap_reverses_bytes.

Example C05_example :
  byteswap 4 0x01020304 = 0x04030201 /\ writeSwap LittleEndian BigEndian 4 0x01020304 = [1; 2; 3; 4] /\
  swap_sample LittleEndian [1; 2; 3] = [3; 2; 1].
Proof. repeat split; reflexivity. Qed.

(** ** C06.  Ranges: signed [-2^(b-1), 2^(b-1)), unsigned [0, 2^b). *)

(** Unsigned to signed subtracts half the range: an order-preserving bijection at every width. *)
Theorem C06_unsigned_to_signed_is_shift :
  forall c x, inUnsigned c x ->
    unsignedToSigned c x = x - 2 ^ (bits c - 1) /\ inSigned c (unsignedToSigned c x).
Proof.
  intros c x Hx. rewrite utos by auto. split; auto.
  unfold inUnsigned, inSigned in *. destruct c; cbn [bits] in *; zpow; lia.
Qed.
Print Assumptions C06_unsigned_to_signed_is_shift.

(** At 8, 16 and 24 bits both directions are defined and mutually inverse. *)
Theorem C06_sign_conversion_roundtrip_partial :
  forall c x, c <> kInt32 ->
    (inSigned c x -> rmap (unsignedToSigned c) (signedToUnsigned c x) = Ok x) /\
    (inUnsigned c x -> signedToUnsigned c (unsignedToSigned c x) = Ok x) /\
    (inSigned c x -> signedToUnsigned c x = Ok (x + 2 ^ (bits c - 1)) /\
                     inUnsigned c (x + 2 ^ (bits c - 1))).
Proof.
  intros c x Hc. split; [|split]; intros Hx.
  - rewrite stou by auto. unfold rmap, rbind. f_equal. rewrite utos; [lia|].
    unfold inSigned, inUnsigned in *. destruct c; cbn [bits] in *; zpow; lia.
  - rewrite utos by auto. rewrite stou; auto; [f_equal; lia|].
    unfold inSigned, inUnsigned in *. destruct c; cbn [bits] in *; zpow; lia.
  - split; [apply stou; auto|].
    unfold inSigned, inUnsigned in *. destruct c; cbn [bits] in *; zpow; lia.
Qed.
Print Assumptions C06_sign_conversion_roundtrip_partial.

(** At 32 bits the code computes [x - INT32_MIN] in int: signed overflow, undefined behaviour, for
    every non-negative sample.  So the full C06 (all four widths) fails in the strict reading. *)
Definition C06_statement : Prop :=
  forall c x, inSigned c x -> signedToUnsigned c x = Ok (x + 2 ^ (bits c - 1)).

Theorem C06_sign_conversion_32_refuted : ~ C06_statement.
Proof. intros H. specialize (H kInt32 0). rewrite stou_32_ub in H by lia. unfold inSigned in H.
  cbn [bits] in H. assert (E : UB = Ok (0 + 2 ^ (32 - 1))) by (apply H; lia). discriminate E. Qed.
Print Assumptions C06_sign_conversion_32_refuted.

Theorem C06_sign_conversion_32_extent :
  forall x, inSigned kInt32 x ->
    (x < 0 -> signedToUnsigned kInt32 x = Ok (x + 2 ^ 31)) /\ (0 <= x -> signedToUnsigned kInt32 x = UB).
Proof. intros x Hx; split; [now apply stou_32 | apply stou_32_ub]. Qed.
Print Assumptions C06_sign_conversion_32_extent.

Example C06_example : inSigned kInt24 (-5) /\ signedToUnsigned kInt24 (-5) = Ok 8388603 /\
  unsignedToSigned kInt24 8388603 = -5.
Proof. unfold inSigned; cbn; repeat split; lia. Qed.

(** ** C07 *)

(** A buffer of packed samples, each three bytes in host order, survives expand and compress. *)
Theorem C07_packed_buffer_roundtrip :
  forall host isSigned (samples : list (list Z)),
    Forall (fun s => length s = 3%nat /\ bytes_ok s = true) samples ->
    rmap (map (compress4 host)) (rmapM (expand3 host isSigned) samples) = Ok samples.
Proof.
  intros host sg samples H.
  rewrite (rmapM_Ok_map _ (fun l => if sg then s24 (load host l) else load host l)).
  2:{ intros l Hl. rewrite Forall_forall in H. destruct (H l Hl). now apply expand3_val. }
  unfold rmap, rbind. f_equal. rewrite map_map. rewrite <- (map_id samples) at 2.
  apply map_ext_in. intros l Hl. rewrite Forall_forall in H. destruct (H l Hl) as [Hn Hb].
  pose proof (compress_expand host sg l Hn Hb) as E. rewrite expand3_val in E by auto.
  unfold rmap, rbind in E. congruence.
Qed.
Print Assumptions C07_packed_buffer_roundtrip.

(** In-range samples survive compress and expand, and their packed form is their base-256 digits. *)
Theorem C07_unpacked_buffer_roundtrip :
  forall host (isSigned : bool) (samples : list Z),
    Forall (fun x => if isSigned then -2 ^ 23 <= x < 2 ^ 23 else 0 <= x < 2 ^ 24) samples ->
    rmapM (expand3 host isSigned) (map (compress4 host) samples) = Ok samples.
Proof.
  intros host sg samples H. rewrite rmapM_map. apply rmapM_all.
  intros x Hx. rewrite Forall_forall in H. specialize (H x Hx).
  apply expand_compress. destruct sg; unfold inSigned, inUnsigned; cbn [bits]; zpow; lia.
Qed.
Print Assumptions C07_unpacked_buffer_roundtrip.

Theorem C07_packed_bytes :
  forall x, compress4 LittleEndian x = le_bytes 3 x /\ compress4 BigEndian x = be_bytes 3 x.
Proof. intros x; split; apply compress4_val. Qed.
Print Assumptions C07_packed_bytes.

Example C07_example : compress4 LittleEndian (-2) = [254; 255; 255] /\
  expand3 LittleEndian true [254; 255; 255] = Ok (-2) /\ expand3 LittleEndian false [254; 255; 255] = Ok 16777214.
Proof. repeat split; reflexivity. Qed.

(** ** C08 *)
Theorem C08_widen_then_narrow :
  forall i o x, bits i <= bits o -> inSigned i x ->
    convertInt i o x = Ok (x * 2 ^ (bits o - bits i)) /\
    rbind (convertInt i o x) (convertInt o i) = Ok x.
Proof.
  intros i o x Hio Hx. assert (codenum i <= codenum o) by (rewrite !bits_code in Hio; lia).
  split; [apply convertInt_widen | apply convertInt_widen_narrow]; auto.
Qed.
Print Assumptions C08_widen_then_narrow.

Theorem C08_narrow_keeps_top_bits :
  forall i o x, bits o < bits i -> inSigned i x ->
    convertInt i o x = Ok (x / 2 ^ (bits i - bits o)) /\
    - 2 ^ (bits o - 1) <= x / 2 ^ (bits i - bits o) < 2 ^ (bits o - 1).
Proof.
  intros i o x Hio Hx. apply convertInt_narrow; auto. rewrite !bits_code in Hio; lia.
Qed.
Print Assumptions C08_narrow_keeps_top_bits.

Theorem C08_always_defined_and_in_range :
  forall i o x, inSigned i x -> exists y, convertInt i o x = Ok y /\ inSigned o y.
Proof. exact convertInt_total. Qed.
Print Assumptions C08_always_defined_and_in_range.

Theorem C08_monotone :
  forall i o x y x' y', inSigned i x -> inSigned i y -> x <= y ->
    convertInt i o x = Ok x' -> convertInt i o y = Ok y' -> x' <= y'.
Proof. exact convertInt_mono. Qed.
Print Assumptions C08_monotone.

Theorem C08_widening_composes :
  forall i m o x, bits i <= bits m -> bits m <= bits o -> inSigned i x ->
    rbind (convertInt i m x) (convertInt m o) = convertInt i o x.
Proof.
  intros i m o x H1 H2. rewrite !bits_code in *. apply convertInt_compose; lia.
Qed.
Print Assumptions C08_widening_composes.

Theorem C08_narrowing_composes :
  forall i m o x, bits o < bits m -> bits m < bits i -> inSigned i x ->
    rbind (convertInt i m x) (convertInt m o) = convertInt i o x.
Proof.
  intros i m o x H1 H2 Hx. rewrite !bits_code in H1, H2.
  destruct (convertInt_narrow i m x ltac:(lia) Hx) as [-> Hy]. cbn [rbind].
  rewrite (proj1 (convertInt_narrow m o _ ltac:(lia) Hy)).
  rewrite (proj1 (convertInt_narrow i o x ltac:(lia) Hx)). f_equal.
  rewrite Z.div_div.
  - rewrite <- Z.pow_add_r by (rewrite !bits_code; lia). do 2 f_equal. lia.
  - apply Z.pow_nonzero; rewrite ?bits_code; lia.
  - apply Z.pow_pos_nonneg; rewrite ?bits_code; lia.
Qed.
Print Assumptions C08_narrowing_composes.

Example C08_example : inSigned kInt16 (-300) /\ convertInt kInt16 kInt8 (-300) = Ok (-2) /\
  convertInt kInt16 kInt32 (-300) = Ok (-19660800).
Proof. unfold inSigned; cbn; repeat split; lia. Qed.

(** ** C09 (integer samples; floating-point samples in [PropertiesFloat]) *)
Theorem C09_clip_in_range_fixes_inside_idempotent_monotone :
  forall lo hi x y, lo <= hi ->
    lo <= clipInt lo hi x <= hi /\
    (lo <= x <= hi -> clipInt lo hi x = x) /\
    clipInt lo hi (clipInt lo hi x) = clipInt lo hi x /\
    (x <= y -> clipInt lo hi x <= clipInt lo hi y).
Proof.
  intros lo hi x y H. split; [now apply clip_range|]. split; [apply clip_inside|].
  split; [apply clip_idem|apply clip_mono].
Qed.
Print Assumptions C09_clip_in_range_fixes_inside_idempotent_monotone.

Example C09_example : clipInt (-100) 100 (-32768) = -100 /\ clipInt (-100) 100 7 = 7.
Proof. split; reflexivity. Qed.

(** ** C10.  [ofT]/[toT]/[mul]/[add]/[zero]: the arithmetic of the sample and matrix types, arbitrary,
    so the statements hold for float rounding too. *)
Theorem C10_frames_are_mixed_independently :
  forall (T D : Type) (ofT : T -> D) (toT : D -> res T) mul add zero rows fs gs,
    matrix_run ofT toT mul add zero rows (fs ++ gs) =
    (do a <- matrix_run ofT toT mul add zero rows fs;
     do b <- matrix_run ofT toT mul add zero rows gs; Ok (a ++ b)).
Proof. intros. apply matrix_run_app. Qed.
Print Assumptions C10_frames_are_mixed_independently.

Theorem C10_kth_frame_depends_only_on_kth_input :
  forall (T D : Type) (ofT : T -> D) (toT : D -> res T) mul add zero rows fs gs,
    matrix_run ofT toT mul add zero rows fs = Ok gs ->
    length gs = length fs /\
    forall k f, nth_error fs k = Some f ->
      exists g, nth_error gs k = Some g /\ matrix_frame ofT toT mul add zero rows f = Ok g.
Proof. intros. now apply matrix_run_nth. Qed.
Print Assumptions C10_kth_frame_depends_only_on_kth_input.

(** Over exact arithmetic (entries in halves) an output sample is the matrix row times the frame. *)
Theorem C10_output_is_matrix_product :
  forall w rows frame out,
    matrix_frame (fun x => x) (store_half w) Z.mul Z.add 0 rows frame = Ok out ->
    out = map (fun row => Z.quot (zdot row frame) 2) rows.
Proof.
  intros w rows frame out. rewrite mix_frame. revert out; induction rows as [|r rows IH]; cbn [rmapM map]; intros out H.
  - now inversion H.
  - apply rbind_Ok in H as (a & Ha & H). apply rbind_Ok in H as (l & Hl & H).
    inversion H; subst. f_equal; auto. unfold store_half in Ha.
    destruct (inS w (zdot r frame ÷ 2)); now inversion Ha.
Qed.
Print Assumptions C10_output_is_matrix_product.

(** The transposition used for writing: entry (out j, in i) is the user's entry (in i, out j). *)
Theorem C10_writing_matrix_is_transposed :
  forall (D : Type) (inC outC i j : nat) (m : list (list D)) (dflt : D), (i < inC)%nat -> (j < outC)%nat ->
    nth i (nth j (transpose_for_writing inC outC m dflt) []) dflt = nth j (nth i m []) dflt.
Proof.
  intros D inC outC i j m dflt Hi Hj. unfold transpose_for_writing.
  rewrite (nth_indep _ [] (map (fun i0 => nth 0 (nth i0 m []) dflt) (seq 0 inC)))
    by (rewrite map_length, seq_length; lia).
  rewrite (map_nth (fun j0 => map (fun i0 => nth j0 (nth i0 m []) dflt) (seq 0 inC)) (seq 0 outC) 0%nat j).
  rewrite seq_nth by lia. cbn [plus].
  rewrite (nth_indep _ dflt (nth j (nth 0 m []) dflt)) by (rewrite map_length, seq_length; lia).
  rewrite (map_nth (fun i0 => nth j (nth i0 m []) dflt) (seq 0 inC) 0%nat i).
  rewrite seq_nth by lia. reflexivity.
Qed.
Print Assumptions C10_writing_matrix_is_transposed.

(** Without a matrix, equal channel counts copy every frame. *)
Theorem C10_identity_copies :
  forall w n frames,
    Forall (fun f => length f = n /\ Forall (fun x => inS w x = true) f) frames ->
    mix_int w (default_matrix n n) frames = Ok frames.
Proof.
  intros w n frames H. unfold mix_int, matrix_run. apply rmapM_all. intros f Hf.
  rewrite Forall_forall in H. destruct (H f Hf) as [Hl Hr]. rewrite mix_frame.
  replace (default_matrix n n) with (identity_rows n n).
  - subst n. now apply mix_identity.
  - destruct n as [|[|[|[|[|]]]]]; reflexivity.
Qed.
Print Assumptions C10_identity_copies.

(** Mono to stereo and stereo to quad copy channels exactly, other channels are silent. *)
Theorem C10_upmix_copies :
  forall w l r, 0 < w -> inS w l = true -> inS w r = true ->
    mix_int w (default_matrix 1 2) [[l]] = Ok [[l; l]] /\
    mix_int w (default_matrix 1 4) [[l]] = Ok [[l; l; 0; 0]] /\
    mix_int w (default_matrix 2 4) [[l; r]] = Ok [[l; r; 0; 0]].
Proof.
  intros w l r Hw Hl Hr. unfold mix_int, matrix_run. cbn [rmapM]. rewrite !mix_frame.
  cbn [default_matrix rmapM zdot].
  assert (H0 : store_half w 0 = Ok 0) by (apply (store_half_even w 0); apply inS_spec;
    assert (0 < 2 ^ (w - 1)) by (apply Z.pow_pos_nonneg; lia); lia).
  replace (2 * l + 0) with (2 * l) by lia. replace (0 * l + 0) with 0 by lia.
  replace (2 * l + (0 * r + 0)) with (2 * l) by lia. replace (0 * l + (2 * r + 0)) with (2 * r) by lia.
  replace (0 * l + (0 * r + 0)) with 0 by lia.
  rewrite H0, !store_half_even by auto. repeat split; reflexivity.
Qed.
Print Assumptions C10_upmix_copies.

(** Stereo to mono averages (toward zero) and never leaves the sample range. *)
Theorem C10_stereo_to_mono_averages :
  forall w l r, inS w l = true -> inS w r = true ->
    mix_int w (default_matrix 2 1) [[l; r]] = Ok [[Z.quot (l + r) 2]].
Proof.
  intros w l r Hl Hr. apply inS_spec in Hl, Hr. unfold mix_int, matrix_run. cbn [rmapM]. rewrite mix_frame.
  cbn [default_matrix rmapM zdot]. replace (1 * l + (1 * r + 0)) with (l + r) by lia.
  unfold store_half. replace (inS w (Z.quot (l + r) 2)) with true; [reflexivity|].
  symmetry. apply inS_spec. set (p := 2 ^ (w - 1)) in *. clearbody p.
  pose proof (Z.quot_rem (l + r) 2 ltac:(lia)).
  destruct (Z_le_gt_dec 0 (l + r)).
  - pose proof (Z.rem_bound_pos (l + r) 2 ltac:(lia) ltac:(lia)).
    set (q := Z.quot (l + r) 2) in *. set (m := Z.rem (l + r) 2) in *. clearbody q m. lia.
  - pose proof (Z.rem_bound_pos_neg (l + r) 2 ltac:(lia) ltac:(lia)).
    set (q := Z.quot (l + r) 2) in *. set (m := Z.rem (l + r) 2) in *. clearbody q m. lia.
Qed.
Print Assumptions C10_stereo_to_mono_averages.

Example C10_example : mix_int 16 (default_matrix 2 1) [[100; 50]; [-3; 0]] = Ok [[75]; [-1]].
Proof. reflexivity. Qed.

(** ** C11.  The full claim is false: quad to mono and quad to stereo sum without halving enough. *)
Definition C11_statement : Prop :=
  forall w inC outC frame, (w = 8 \/ w = 16 \/ w = 32) -> length frame = inC ->
    Forall (fun x => inS w x = true) frame ->
    exists out, mix_int w (default_matrix inC outC) [frame] = Ok out.

Theorem C11_quad_mixdown_refuted : ~ C11_statement.
Proof.
  intros H. specialize (H 16 4%nat 1%nat [32767; 32767; 32767; 32767]).
  destruct H as [out Ho]; [auto|reflexivity|repeat constructor|]. vm_compute in Ho. discriminate.
Qed.
Print Assumptions C11_quad_mixdown_refuted.

(** Every other built-in matrix stays in range: all channel-count pairs except 4->1 and 4->2. *)
Theorem C11_mixing_in_range_partial :
  forall w inC outC frame, 0 < w -> length frame = inC ->
    ~ (inC = 4%nat /\ (outC = 1%nat \/ outC = 2%nat)) ->
    Forall (fun x => inS w x = true) frame ->
    exists out, mix_int w (default_matrix inC outC) [frame] = Ok [out] /\ length out = outC /\
                Forall (fun x => inS w x = true) out.
Proof. exact mix_in_range. Qed.
Print Assumptions C11_mixing_in_range_partial.

Example C11_example : mix_int 16 (default_matrix 2 1) [[-32768; -32768]] = Ok [[-32768]].
Proof. reflexivity. Qed.
