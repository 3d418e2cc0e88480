(** * Properties of the G.711 codecs (C01-C04) *)
From Verif Require Import Prelude G711 G711Proofs.

(** C01.  The codes of a mu-law buffer of any length survive decoding and re-encoding; only the
    negative-zero code 127 becomes the positive-zero code 255, which decodes to the same sample. *)
Theorem C01_ulaw_buffer_roundtrip :
  forall codes : list Z,
    Forall (fun b => 0 <= b < 256) codes ->
    linear2ulaw_buf (ulaw2linear_buf codes) = map (fun b => if b =? 127 then 255 else b) codes.
Proof.
  intros codes H. unfold linear2ulaw_buf, ulaw2linear_buf. rewrite map_map.
  apply map_ext_in. intros b Hb. rewrite Forall_forall in H. specialize (H b Hb).
  assert (E : s16 (ulaw2linear b) = ulaw2linear b).
  { apply PreludeFacts.sN_small; [lia|]. pose proof (ulaw_dec_range b H). cbn; lia. }
  rewrite E. apply ulaw_code_roundtrip; exact H.
Qed.
Print Assumptions C01_ulaw_buffer_roundtrip.

Theorem C01_ulaw_two_zeros_decode_alike : ulaw2linear 127 = ulaw2linear 255.
Proof. reflexivity. Qed.
Print Assumptions C01_ulaw_two_zeros_decode_alike.

Example C01_example : Forall (fun b => 0 <= b < 256) [0; 127; 200; 255] /\
  linear2ulaw_buf (ulaw2linear_buf [0; 127; 200; 255]) = [0; 255; 200; 255].
Proof. split; [repeat constructor; lia | reflexivity]. Qed.

(** C02.  Encoding then decoding a sample, as a function of the sample. *)
Theorem C02_ulaw_monotone :
  forall x y : Z, x <= y -> ulaw2linear (linear2ulaw x) <= ulaw2linear (linear2ulaw y).
Proof. exact ulaw_monotone. Qed.
Print Assumptions C02_ulaw_monotone.

(** Samples whose biased magnitude lies in segment [s] have step 2^(s+3); the error is at most half
    a step. The eight segments cover all magnitudes up to 32635. *)
Theorem C02_ulaw_error_bound :
  forall x s : Z, 0 <= s < 8 -> 2 ^ (s + 7) <= Z.abs x + 132 < 2 ^ (s + 8) ->
    Z.abs (ulaw2linear (linear2ulaw x) - x) <= 2 ^ (s + 2).
Proof. exact ulaw_error. Qed.
Print Assumptions C02_ulaw_error_bound.

Theorem C02_ulaw_segments_cover :
  forall x : Z, Z.abs x <= 32635 ->
    exists s, 0 <= s < 8 /\ 2 ^ (s + 7) <= Z.abs x + 132 < 2 ^ (s + 8).
Proof. intros x H. apply (useg (Z.abs x + 132)); lia. Qed.
Print Assumptions C02_ulaw_segments_cover.

Theorem C02_ulaw_saturates :
  forall x : Z, 32635 < Z.abs x -> ulaw2linear (linear2ulaw x) = 32124 * Z.sgn x.
Proof. intros x H. apply ulaw_saturate; lia. Qed.
Print Assumptions C02_ulaw_saturates.

Theorem C02_ulaw_idempotent_and_in_range :
  forall x : Z,
    ulaw2linear (linear2ulaw (ulaw2linear (linear2ulaw x))) = ulaw2linear (linear2ulaw x) /\
    0 <= linear2ulaw x < 256 /\
    -32124 <= ulaw2linear (linear2ulaw x) <= 32124.
Proof.
  intros x. split; [apply ulaw_idem|]. split; [apply linear2ulaw_byte|].
  apply ulaw_dec_range, linear2ulaw_byte.
Qed.
Print Assumptions C02_ulaw_idempotent_and_in_range.

Example C02_example : 0 <= 3 < 8 /\ 2 ^ (3 + 7) <= Z.abs (-1500) + 132 < 2 ^ (3 + 8) /\
  ulaw2linear (linear2ulaw (-1500)) = -1500 /\ ulaw2linear (linear2ulaw 1000) = 988.
Proof. cbn; repeat split; lia. Qed.

(** C03.  A-law. *)
Theorem C03_alaw_buffer_roundtrip :
  forall codes : list Z,
    Forall (fun b => 0 <= b < 256) codes ->
    linear2alaw_buf (alaw2linear_buf codes) = codes.
Proof.
  intros codes H. unfold linear2alaw_buf, alaw2linear_buf. rewrite map_map.
  rewrite <- (map_id codes) at 2.
  apply map_ext_in. intros b Hb. rewrite Forall_forall in H. specialize (H b Hb).
  assert (E : s16 (alaw2linear b) = alaw2linear b).
  { apply PreludeFacts.sN_small; [lia|]. pose proof (alaw_dec_range b H). cbn; lia. }
  rewrite E. apply alaw_code_roundtrip; exact H.
Qed.
Print Assumptions C03_alaw_buffer_roundtrip.

Example C03_example : Forall (fun b => 0 <= b < 256) [0; 85; 213; 255].
Proof. repeat constructor; lia. Qed.

(** C04.  The full statement (monotone on all 16-bit samples, error below one step) is false of the
    code: the samples -7..-1 are encoded as if they were -248. *)
Definition C04_statement : Prop :=
  forall x y : Z, -32768 <= x -> y <= 32767 -> x <= y ->
    alaw2linear (linear2alaw x) <= alaw2linear (linear2alaw y).

Theorem C04_alaw_monotone_refuted : ~ C04_statement.
Proof. intros H. specialize (H (-8) (-1) ltac:(lia) ltac:(lia) ltac:(lia)). vm_compute in H. apply H; reflexivity. Qed.
Print Assumptions C04_alaw_monotone_refuted.

(** The extent of the defect: exactly the seven samples -7..-1, each decoded as -248. *)
Theorem C04_alaw_small_negative_samples :
  forall x : Z, -7 <= x <= -1 -> alaw2linear (linear2alaw x) = -248.
Proof. exact alaw_small_negative. Qed.
Print Assumptions C04_alaw_small_negative_samples.

(** Outside -7..-1 the claim holds. *)
Theorem C04_alaw_monotone_partial :
  forall x y : Z, -32768 <= x -> y <= 32767 -> x <= y ->
    (x < -7 \/ 0 <= x) -> (y < -7 \/ 0 <= y) ->
    alaw2linear (linear2alaw x) <= alaw2linear (linear2alaw y).
Proof. exact alaw_monotone. Qed.
Print Assumptions C04_alaw_monotone_partial.

(** Error: at most half of the segment's step 2^(s+3) for non-negative samples; for negative ones the
    code's offset of 8 adds up to 7. ([s = 1] covers all magnitudes below 512.) *)
Theorem C04_alaw_error_bound_partial :
  forall x s : Z, -32768 <= x <= 32767 -> (x < -7 \/ 0 <= x) ->
    1 <= s < 8 -> (s = 1 \/ 2 ^ (s + 7) <= Z.abs x) -> Z.abs x < 2 ^ (s + 8) ->
    Z.abs (alaw2linear (linear2alaw x) - x) <= 2 ^ (s + 2) + (if x <? 0 then 7 else 0).
Proof. exact alaw_error. Qed.
Print Assumptions C04_alaw_error_bound_partial.

Theorem C04_alaw_idempotent_and_in_range :
  forall x : Z,
    alaw2linear (linear2alaw (alaw2linear (linear2alaw x))) = alaw2linear (linear2alaw x) /\
    0 <= linear2alaw x < 256 /\
    -32256 <= alaw2linear (linear2alaw x) <= 32256.
Proof.
  intros x. split; [apply alaw_idem|]. split; [apply linear2alaw_byte|].
  apply alaw_dec_range, linear2alaw_byte.
Qed.
Print Assumptions C04_alaw_idempotent_and_in_range.

Example C04_example : 1 <= 3 < 8 /\ 2 ^ (3 + 7) <= Z.abs (-1500) /\ Z.abs (-1500) < 2 ^ (3 + 8) /\
  alaw2linear (linear2alaw (-1500)) = -1504.
Proof. cbn; repeat split; lia. Qed.
