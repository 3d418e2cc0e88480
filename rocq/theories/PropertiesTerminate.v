(** * C38: opening a file terminates *)
From Verif Require Import Prelude PreludeFacts ByteOrder FileIO Codecs HeaderIO Chunks Float Extended AIFF.

Ltac tame_step :=
  first
    [ apply tame_bind; [|intros ?] | apply tame_ret | apply tame_fail | apply tame_ub | apply tame_read | apply tame_seek | apply tame_skip
    | apply tame_tell | apply tame_length | apply tame_tryU | apply tame_readU | apply tame_readTag | apply tame_readU0 | apply tame_needU
    | apply tame_assert | match goal with |- tame (if ?b then _ else _) => destruct b | |- tame (match ?x with _ => _ end) => destruct x end ].
Ltac tame_with t := repeat first [t | tame_step].
Ltac tame := repeat tame_step.
Lemma tame_bppPCM w c : tame (hlift (bppPCM w c)).
Proof. apply tame_lift. unfold bppPCM, ck32. destruct (inS 32 _); discriminate. Qed.

(** ** AIFF *)
Lemma fromExtended_fuel b : fromExtended b <> OutOfFuel.
Proof.
  unfold fromExtended. do 10 (destruct b as [|? b]; [discriminate|]). destruct b; [|discriminate]. cbv zeta.
  repeat match goal with |- context [if ?c then _ else _] => destruct c end; discriminate.
Qed.
Lemma tame_commDone s rate sf w ch o c fpp bpp total : tame (commDone s rate sf w ch o c fpp bpp total).
Proof. unfold commDone. tame. Qed.
Lemma tame_parseMarks n : tame (parseMarks n).
Proof. induction n; cbn [parseMarks]; tame. exact IHn. Qed.
Lemma aiffChunk_tame {B : Build} aifc host s tag n : tame (aiffChunk aifc host s tag n).
Proof.
  assert (P : forall s rate sf w ch o t, tame (commPCM s rate sf w ch o t)) by (intros; unfold commPCM; apply tame_bind; [apply tame_bppPCM|intros; apply tame_commDone]).
  assert (C : tame (parseCOMM aifc host s)).
  { unfold parseCOMM, readPString, commAIFC. tame_with ltac:(first [apply P | apply tame_commDone | apply tame_lift; apply fromExtended_fuel]). }
  unfold aiffChunk, parseINST, parseMARK, parseAESD, parseMisc, parseSSND. tame_with ltac:(first [exact C | apply tame_parseMarks]).
Qed.

(** An AIFF or AIFF-C file opens in finitely many steps, whatever it contains, unless the walk over its chunks comes to a
    chunk whose size field is 2^32 - 8. *)
Theorem C38_aiff_terminates_partial :
  forall (B : Build) aifc host b, bytes_ok b = true ->
    (forall i, walk BigEndian u64 b (word BigEndian b 4) i -> word BigEndian b (i + 12) <> 2 ^ 32 - 8) ->
    exists n, forall fuel, (n <= fuel)%nat -> aiffOpen aifc host fuel (mkFile b 0) <> OutOfFuel.
Proof.
  intros B aifc host b Hok H. exists (Z.to_nat (2 ^ 32)). intros fuel Hf. unfold aiffOpen. intros E.
  assert (R : aiffRead aifc host fuel (mkFile b 0) <> OutOfFuel).
  2:{ unfold hbind, hlift in E. destruct (aiffRead aifc host fuel (mkFile b 0)) as [[[s f]|]| | |]; cbn [rbind] in E; try discriminate; [|congruence].
      unfold aiffParsed in E. destruct (as_fmt s); discriminate. }
  clear E. unfold aiffRead. rewrite st_seek. cbn [fbytes].
  unfold hbind at 1, hread at 1, fread. cbn [fbytes fpos rbind]. set (d := zfirstn 4 (zskipn 0 b)).
  unfold hbind at 1. unfold readU at 1, fread. cbn [fbytes fpos]. set (w := zfirstn (Z.of_nat 4) _). destruct (zlen w =? Z.of_nat 4) eqn:Ew; [|discriminate]. cbn [rbind].
  unfold hbind at 1, hread at 1, fread. cbn [fbytes fpos rbind]. set (fo := zfirstn 4 (zskipn (_ + _) b)).
  destruct (negb (teq d T_FORM) || _) eqn:Et; [discriminate|].
  assert (Ld : zlen d = 4) by (destruct (teq d T_FORM) eqn:E; [|discriminate Et]; unfold teq in E; destruct (list_eq_dec Z.eq_dec d T_FORM) as [->|]; [reflexivity|discriminate]).
  assert (Lf : zlen fo = 4).
  { apply orb_false_iff in Et. destruct Et as [_ Et]. apply negb_false_iff, orb_true_iff in Et. unfold teq in Et. destruct Et as [E|E].
    - destruct (list_eq_dec Z.eq_dec fo T_AIFF) as [->|]; [reflexivity|discriminate].
    - destruct (list_eq_dec Z.eq_dec fo T_AIFC) as [->|]; [reflexivity|discriminate]. }
  unfold w in *. rewrite Lf, Ld in *. change (Z.of_nat 4) with 4 in *. change (0 + 4) with 4 in *. set (w' := zfirstn 4 (zskipn 4 b)) in *.
  assert (Lw : zlen w' = 4) by lia. rewrite Lw.
  assert (EW : valueOf BigEndian w' = word BigEndian b 4) by (unfold word; fold w'; rewrite Ew; reflexivity). rewrite EW.
  pose proof (word_range BigEndian b 4 Hok) as WR. change (4 + 4 + 4) with (u64 (4 + 8)).
  apply chunkLoop_ends.
  - intros. apply aiffChunk_tame.
  - intros x. unfold u64, uN. apply Z.mod_pos_bound. reflexivity.
  - intros i W Hi. apply (walk_u64_grows _ _ (word BigEndian b 4)); auto. apply WR.
  - constructor.
  - change (2 ^ 32) with 4294967296 in *. lia.
Qed.
Print Assumptions C38_aiff_terminates_partial.

(** A file with two chunks; the walk looks at offsets 12 and 22. *)
Definition exForm : list Z := T_FORM ++ be4 24 ++ T_AIFF ++ T_ANNO ++ be4 2 ++ [65; 66] ++ T_ANNO ++ be4 4 ++ [65; 66; 67; 68].
Example C38_aiff_example : bytes_ok exForm = true /\ forall i, walk BigEndian u64 exForm (word BigEndian exForm 4) i -> word BigEndian exForm (i + 12) <> 2 ^ 32 - 8.
Proof.
  split; [reflexivity|]. assert (K : forall i, walk BigEndian u64 exForm (word BigEndian exForm 4) i -> i = 4 \/ i = 14 \/ i = 26).
  { intros i W. induction W as [|i W [->|[->| ->]] Hi]; [left; reflexivity|right; left; reflexivity|right; right; reflexivity|]. vm_compute in Hi. discriminate. }
  intros i W. destruct (K i W) as [->|[->| ->]]; vm_compute; discriminate.
Qed.

(** A chunk of size 2^32 - 8: the index does not move, and the library reads the same chunk for ever. *)
Definition loopForm (form : list Z) : list Z := T_FORM ++ be4 100 ++ form ++ [88; 88; 88; 88] ++ be4 (2 ^ 32 - 8).
Theorem C38_aiff_loops_refuted :
  forall (B : Build) aifc host fuel, aiffOpen aifc host fuel (mkFile (loopForm T_AIFF) 0) = OutOfFuel.
Proof.
  intros B aifc host fuel.
  assert (L : chunkLoop BigEndian u64 (aiffChunk aifc host) fuel 100 4 aiffSt0 (mkFile (loopForm T_AIFF) 12) = OutOfFuel).
  { induction fuel as [|fuel IH]; [reflexivity|]. cbn [chunkLoop]. change (negb (4 <? 100)) with false. cbv iota.
    assert (E1 : readTag (mkFile (loopForm T_AIFF) 12) = Ok (Some ([88;88;88;88], mkFile (loopForm T_AIFF) 16))) by (vm_compute; reflexivity).
    assert (E2 : readU0 BigEndian 4 (mkFile (loopForm T_AIFF) 16) = Ok (Some (2 ^ 32 - 8, mkFile (loopForm T_AIFF) 20))) by (vm_compute; reflexivity).
    unfold hbind at 1. rewrite E1. cbn [rbind]. unfold hbind at 1. rewrite E2. cbn [rbind].
    change (aiffChunk aifc host aiffSt0 [88; 88; 88; 88] (2 ^ 32 - 8)) with (hret aiffSt0). rewrite st_ret, st_seek.
    change (nextIndex u64 4 (2 ^ 32 - 8)) with 4. change (u64 (4 + 8)) with 12. exact IH. }
  assert (E : aiffRead aifc host fuel (mkFile (loopForm T_AIFF) 0) = chunkLoop BigEndian u64 (aiffChunk aifc host) fuel 100 4 aiffSt0 (mkFile (loopForm T_AIFF) 12)) by reflexivity.
  unfold aiffOpen, hbind. rewrite E, L. reflexivity.
Qed.
Print Assumptions C38_aiff_loops_refuted.

(** ** IFF/8SVX *)
From Verif Require Import IFF.
Lemma iffChunk_tame s tag n : tame (iffChunk s tag n).
Proof. unfold iffChunk, parseVHDR, parseBODY, iffMisc. tame. Qed.

Theorem C38_iff_terminates_partial :
  forall b, bytes_ok b = true ->
    (forall i, walk BigEndian u64 b (word BigEndian b 4) i -> word BigEndian b (i + 12) <> 2 ^ 32 - 8) ->
    exists n, forall fuel, (n <= fuel)%nat -> iffOpen fuel (mkFile b 0) <> OutOfFuel.
Proof.
  intros b Hok H. exists (Z.to_nat (2 ^ 32)). intros fuel Hf. unfold iffOpen. intros E.
  assert (R : iffRead fuel (mkFile b 0) <> OutOfFuel).
  2:{ unfold hbind, hlift in E. destruct (iffRead fuel (mkFile b 0)) as [[[s f]|]| | |]; cbn [rbind] in E; try discriminate; [|congruence].
      destruct (is_fmt s); discriminate. }
  clear E. unfold iffRead. rewrite st_seek. cbn [fbytes].
  unfold hbind at 1, readTag at 1, fread. cbn [fbytes fpos rbind]. set (d := zfirstn 4 (zskipn 0 b)).
  unfold hbind at 1. unfold readU at 1, fread. cbn [fbytes fpos]. set (w := zfirstn (Z.of_nat 4) _). destruct (zlen w =? Z.of_nat 4) eqn:Ew; [|discriminate]. cbn [rbind].
  unfold hbind at 1, readTag at 1, fread. cbn [fbytes fpos rbind]. set (fo := zfirstn 4 (zskipn (_ + _) b)).
  destruct (negb (teq _ T_FORM) || _) eqn:Et; [discriminate|]. apply orb_false_iff in Et. destruct Et as [E1 E2]. apply negb_false_iff in E1, E2.
  assert (Ld : zlen d = 4) by (destruct (zlen d =? 4) eqn:E; [lia|discriminate E1]).
  assert (Lf : zlen fo = 4) by (destruct (zlen fo =? 4) eqn:E; [lia|discriminate E2]).
  unfold w in *. rewrite Lf, Ld in *. change (Z.of_nat 4) with 4 in *. change (0 + 4) with 4 in *. set (w' := zfirstn 4 (zskipn 4 b)) in *.
  assert (Lw : zlen w' = 4) by lia. rewrite Lw.
  assert (EW : valueOf BigEndian w' = word BigEndian b 4) by (unfold word; fold w'; rewrite Ew; reflexivity). rewrite EW.
  pose proof (word_range BigEndian b 4 Hok) as WR. change (4 + 4 + 4) with (u64 (4 + 8)).
  apply chunkLoop_ends.
  - intros. apply iffChunk_tame.
  - intros x. unfold u64, uN. apply Z.mod_pos_bound. reflexivity.
  - intros i W Hi. apply (walk_u64_grows _ _ (word BigEndian b 4)); auto. apply WR.
  - constructor.
  - change (2 ^ 32) with 4294967296 in *. lia.
Qed.
Print Assumptions C38_iff_terminates_partial.

Theorem C38_iff_loops_refuted :
  forall fuel, iffOpen fuel (mkFile (loopForm T_8SVX) 0) = OutOfFuel.
Proof.
  intros fuel.
  assert (L : chunkLoop BigEndian u64 iffChunk fuel 100 4 iffSt0 (mkFile (loopForm T_8SVX) 12) = OutOfFuel).
  { induction fuel as [|fuel IH]; [reflexivity|]. cbn [chunkLoop]. change (negb (4 <? 100)) with false. cbv iota.
    assert (E1 : readTag (mkFile (loopForm T_8SVX) 12) = Ok (Some ([88;88;88;88], mkFile (loopForm T_8SVX) 16))) by (vm_compute; reflexivity).
    assert (E2 : readU0 BigEndian 4 (mkFile (loopForm T_8SVX) 16) = Ok (Some (2 ^ 32 - 8, mkFile (loopForm T_8SVX) 20))) by (vm_compute; reflexivity).
    unfold hbind at 1. rewrite E1. cbn [rbind]. unfold hbind at 1. rewrite E2. cbn [rbind].
    change (iffChunk iffSt0 [88; 88; 88; 88] (2 ^ 32 - 8)) with (hret iffSt0). rewrite st_ret, st_seek.
    change (nextIndex u64 4 (2 ^ 32 - 8)) with 4. change (u64 (4 + 8)) with 12. exact IH. }
  assert (E : iffRead fuel (mkFile (loopForm T_8SVX) 0) = chunkLoop BigEndian u64 iffChunk fuel 100 4 iffSt0 (mkFile (loopForm T_8SVX) 12)) by reflexivity.
  unfold iffOpen, hbind. rewrite E, L. reflexivity.
Qed.
Print Assumptions C38_iff_loops_refuted.
