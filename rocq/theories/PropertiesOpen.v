(** * C57: opening a file has defined behaviour, whatever the file contains *)
From Verif Require Import Prelude PreludeFacts ByteOrder FileIO WriterSpec Codecs HeaderIO NeXT.

(** Reading the header of a file with these bytes is defined: it succeeds or fails without undefined behaviour
    and without a failed assertion. *)
Definition opensDefined (read : hP parsed) (bytes : list Z) : Prop := exists r, read (mkFile bytes 0) = Ok r.

Lemma readU_enough o n b p : 0 <= p -> p + Z.of_nat n <= zlen b ->
  readU o n (mkFile b p) = Ok (Some (valueOf o (region b p (Z.of_nat n)), mkFile b (p + Z.of_nat n))).
Proof.
  intros Hp Hn. unfold readU, fread, region. cbn [fbytes fpos]. set (d := zfirstn _ _).
  assert (L : zlen d = Z.of_nat n) by (unfold d; rewrite zlen_firstn, zlen_skipn by lia; lia). rewrite L, Z.eqb_refl. reflexivity.
Qed.
Lemma readU_short o n b p : 0 <= p -> zlen b < p + Z.of_nat n -> (0 < n)%nat -> readU o n (mkFile b p) = UB.
Proof.
  intros Hp Hn Hz. unfold readU, fread. cbn [fbytes fpos]. set (d := zfirstn _ _).
  assert (L : zlen d < Z.of_nat n).
  { unfold d. destruct (Z.le_gt_cases p (zlen b)). - rewrite zlen_firstn, zlen_skipn by lia. lia. - rewrite zskipn_all by lia. unfold zfirstn. rewrite firstn_nil. unfold zlen; cbn. lia. }
  replace (zlen d =? Z.of_nat n) with false by lia. reflexivity.
Qed.

(** ** NeXT/Sun *)
(** A recognized file of at least 24 bytes opens with defined behaviour, unless its channel count times the
    sample size does not fit an int. *)
Theorem C57_next_defined_partial :
  forall (B : Build) host bytes, 24 <= zlen bytes -> nextRecognize (mkFile bytes 0) = true ->
    - 2 ^ 28 <= s32 (be_val (region bytes 20 4)) < 2 ^ 28 ->
    opensDefined (nextRead host) bytes.
Proof.
  intros B host b Hl Hr Hc. change (2 ^ 28) with 268435456 in Hc. unfold opensDefined.
  unfold nextRead. unfold hbind at 1, hseek, fseek. cbn [rbind fbytes].
  unfold nextRecognize, fread, fseek in Hr. cbn [fbytes fpos] in Hr.
  destruct (list_eq_dec Z.eq_dec (zfirstn 4 (zskipn 0 b)) snd_magic) as [Em|]; [|discriminate].
  unfold hbind at 1, hread, fread. cbn [rbind fbytes fpos]. rewrite Em. change (0 + zlen snd_magic) with 4.
  unfold hbind at 1, hassert, rassert. destruct (list_eq_dec Z.eq_dec snd_magic snd_magic); [|congruence]. cbn [rbind].
  do 5 (unfold hbind at 1; rewrite readU_enough by lia; cbn [rbind]).
  destruct (_ =? 0) eqn:E0; [eexists; reflexivity|]. unfold hbind at 1, hlength, flength. cbn [rbind fbytes].
  change (4 + Z.of_nat 4 + Z.of_nat 4 + Z.of_nat 4 + Z.of_nat 4) with 20. change (Z.of_nat 4) with 4. change (valueOf BigEndian (region b 20 4)) with (be_val (region b 20 4)). set (ch := s32 (be_val (region b 20 4))) in *.
  assert (Q : forall w f, 0 <= w <= 64 -> exists x, hlift (bppPCM w ch) f = Ok (Some (x, f))).
  { intros w f Hw. unfold hlift, bppPCM, ck32. assert (0 <= Z.quot (w + 7) 8 <= 8) by (rewrite Z.quot_div_nonneg by lia; lia).
    rewrite (proj2 (inS_spec 32 _)) by (change (2 ^ (32 - 1)) with 2147483648; nia). cbn [rbind]. eauto. }
  repeat match goal with
  | |- exists r, (if ?x then _ else _) _ = Ok r => destruct x; try (eexists; reflexivity);
      try (unfold hbind at 1; match goal with |- context [hlift (bppPCM ?w ch) ?f] => destruct (Q w f ltac:(lia)) as (x0 & ->) end; cbn [rbind]; eexists; reflexivity)
  end.
Qed.
Print Assumptions C57_next_defined_partial.

(** A .snd file cut inside its header: the fields that could not be read are used uninitialised. *)
Theorem C57_next_truncated_refuted :
  forall (B : Build) host bytes, 4 <= zlen bytes < 24 -> nextRecognize (mkFile bytes 0) = true -> nextRead host (mkFile bytes 0) = UB.
Proof.
  intros B host b Hl Hr. unfold nextRead. unfold hbind at 1, hseek, fseek. cbn [rbind fbytes].
  unfold nextRecognize, fread, fseek in Hr. cbn [fbytes fpos] in Hr.
  destruct (list_eq_dec Z.eq_dec (zfirstn 4 (zskipn 0 b)) snd_magic) as [Em|]; [|discriminate].
  unfold hbind at 1, hread, fread. cbn [rbind fbytes fpos]. rewrite Em. change (0 + zlen snd_magic) with 4.
  unfold hbind at 1, hassert, rassert. destruct (list_eq_dec Z.eq_dec snd_magic snd_magic); [|congruence]. cbn [rbind].
  assert (K : forall o p, 0 <= p -> zlen b < p + Z.of_nat 4 -> readU o 4 (mkFile b p) = UB) by (intros; apply readU_short; lia).
  do 5 (unfold hbind at 1;
    match goal with |- context [readU BigEndian 4 (mkFile b ?p)] =>
      destruct (Z.le_gt_cases (p + Z.of_nat 4) (zlen b)); [rewrite (readU_enough BigEndian 4 b p) by lia; cbn [rbind]|rewrite K by lia; reflexivity] end).
  lia.
Qed.
Print Assumptions C57_next_truncated_refuted.

(** A channel count of 2^30 with 16-bit samples overflows an int. *)
Theorem C57_next_channels_refuted :
  forall (B : Build) host, nextRead host (mkFile (snd_magic ++ [0;0;0;28; 0;0;0;0; 0;0;0;3; 0;0;172;68; 64;0;0;0; 0;0;0;0]) 0) = UB.
Proof. intros. reflexivity. Qed.
Print Assumptions C57_next_channels_refuted.

Example C57_next_example :
  let b := snd_magic ++ [0;0;0;28; 0;0;0;0; 0;0;0;3; 0;0;172;68; 0;0;0;2; 0;0;0;0] in
  24 <= zlen b /\ nextRecognize (mkFile b 0) = true /\ - 2 ^ 28 <= s32 (be_val (region b 20 4)) < 2 ^ 28 /\
  4 <= zlen snd_magic < 24 /\ nextRecognize (mkFile snd_magic 0) = true.
Proof. vm_compute. repeat split; congruence. Qed.
