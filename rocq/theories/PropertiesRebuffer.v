(** * Properties of the rebuffering module (C20, C21, and the buffer part of C22) *)
From Verif Require Import Prelude PreludeFacts Rebuffer RebufferSpec RebufferProofs.

(** ** C20 *)

(** For every source that stands for a stream, block size, mode and sequence of request sizes: each request
    is answered with exactly the next frames of the stream (all of them up to the end), no assertion
    fails and no access leaves a buffer. *)
Theorem C20_reads_are_the_stream :
  forall (B : Build) (A S : Type) (pull : S -> Z -> res (list (option A) * S)) (R : S -> list (option A) -> Prop) N multipleOf s rem reqs,
    0 < N -> serves true multipleOf N pull R -> R s rem -> Forall (fun n => 0 <= n) reqs ->
    rebReads pull N multipleOf (rebInitPull N) s reqs = Ok (streamReads rem reqs).
Proof. intros B A S pull R N m s rem reqs HN HS HR Hq. eapply rebReads_ok; eauto. now apply rebInit_R. Qed.
Print Assumptions C20_reads_are_the_stream.

(** In particular for a list of decoded frames: the concatenation of the chunks is the concatenation of the
    blocks, cut at the total number of frames requested. *)
Theorem C20_no_frame_lost_duplicated_or_reordered :
  forall (B : Build) (A : Type) N multipleOf (frames : list A) reqs, 0 < N -> Forall (fun n => 0 <= n) reqs ->
    exists chunks, rebReads listPull N multipleOf (rebInitPull N) (map Some frames) reqs = Ok chunks /\
      concat chunks = map Some (zfirstn (fold_right Z.add 0 reqs) frames).
Proof.
  intros B A N m frames reqs HN Hq. exists (streamReads (map Some frames) reqs). split.
  - apply (C20_reads_are_the_stream B A _ listPull (fun s rem => s = rem)); auto using listPull_serves.
  - rewrite streamReads_concat by auto. unfold zfirstn. apply firstn_map.
Qed.
Print Assumptions C20_no_frame_lost_duplicated_or_reordered.

(** Each chunk has exactly the requested length while frames remain. *)
Theorem C20_chunk_lengths :
  forall (B : Build) (A S : Type) (pull : S -> Z -> res (list (option A) * S)) R N multipleOf r s rem n,
    0 < N -> serves true multipleOf N pull R -> rebR R N r s rem -> 0 <= n ->
    exists chunk r' s', rebPull pull N multipleOf (Z.to_nat n) r s n = Ok (chunk, r', s') /\
      zlen chunk = Z.min n (zlen rem) /\ (n <= zlen rem -> rebR R N r' s' (zskipn n rem)).
Proof.
  intros B A S pull R N m r s rem n HN HS HR Hn.
  destruct (rebPull_ok pull R N m true HN HS (Z.to_nat n) r s rem n HR Hn ltac:(lia) (or_introl eq_refl)) as (r' & s' & E & H1 & _).
  exists (zfirstn n rem), r', s'. split; [exact E|]. split; [apply zlen_firstn; lia|exact H1].
Qed.
Print Assumptions C20_chunk_lengths.

(** After a short chunk the module must not be asked again: its assertion stops the process (in builds with
    assertions). *)
Theorem C20_pull_after_short_chunk_aborts :
  forall (A S : Type) (pull : S -> Z -> res (list (option A) * S)) R N multipleOf r s rem n m,
    0 < N -> serves true multipleOf N pull R -> rebR R N r s rem -> zlen rem < n -> 
    exists chunk r' s', rebPull (B := Debug) pull N multipleOf (Z.to_nat n) r s n = Ok (chunk, r', s') /\
      forall fuel, rebPull (B := Debug) pull N multipleOf fuel r' s' m = Abort.
Proof.
  intros A S pull R N mu r s rem n m HN HS HR Hn. pose proof (zlen_nonneg rem).
  destruct (rebPull_ok (B := Debug) pull R N mu true HN HS (Z.to_nat n) r s rem n HR ltac:(lia) ltac:(lia) (or_introl eq_refl)) as (r' & s' & E & _ & H2).
  exists (zfirstn n rem), r', s'. split; [exact E|]. intros fuel. destruct (H2 Hn) as [Hs _].
  unfold rebPull. unfold rassert at 1. destruct (offsetOkPull N (r_offset r')); [|reflexivity]. cbn [rbind]. now rewrite Hs.
Qed.
Print Assumptions C20_pull_after_short_chunk_aborts.

Example C20_example (B : Build) :
  rebReads listPull 4 false (rebInitPull 4) (map Some [1; 2; 3; 4; 5; 6; 7; 8; 9]) [3; 0; 2; 3; 7] =
    Ok [[Some 1; Some 2; Some 3]; []; [Some 4; Some 5]; [Some 6; Some 7; Some 8]; [Some 9]].
Proof. vm_compute. reflexivity. Qed.

(** ** C21 *)

(** Every sequence of writes: the sink receives full blocks (multiples of N frames) whose concatenation,
    followed by what the final sync delivers, is exactly the frames written, in order. *)
Theorem C21_writes_are_the_stream :
  forall (B : Build) (A : Type) N (ws : list (list A)) (outb : list (option A)) (multipleOf : bool), 0 < N ->
    (multipleOf = true -> Forall (fun w => N + zlen w <= zlen outb) ws) -> N <= zlen outb ->
    exists r outb' chunks, rebWrites recordPush N multipleOf (rebInitPush N) outb [] ws = Ok (r, outb', chunks) /\
      Forall (fun c => 0 < zlen c /\ zlen c mod N = 0) chunks /\
      exists r' outb'' last, rebSync recordPush N r outb' chunks = Ok (r', outb'', chunks ++ [last]) /\
        zlen last < N /\ concat chunks ++ last = map Some (concat ws).
Proof.
  intros B A N ws outb m HN Hcap Hob.
  assert (G : forall (ws : list (list A)) (r : rebuffer A) (outb : list (option A)) (s : list (list (option A))) recv,
     rebW N r -> (concat s = recv /\ Forall (fun c => 0 < zlen c /\ zlen c mod N = 0) s) ->
     (m = true -> Forall (fun w => N + zlen w <= zlen outb) ws) -> N <= zlen outb ->
     exists r' outb' s' recv', rebWrites recordPush N m r outb s ws = Ok (r', outb', s') /\ rebW N r' /\ zlen outb' = zlen outb /\
       (concat s' = recv' /\ Forall (fun c => 0 < zlen c /\ zlen c mod N = 0) s') /\
       recv' ++ pending r' = recv ++ pending r ++ map Some (concat ws)).
  { clear ws outb Hcap Hob. induction ws as [|w ws IH]; intros r outb s recv HW HP Hcap Hob.
    - exists r, outb, s, recv. cbn. rewrite app_nil_r. auto.
    - cbn [rebWrites].
      destruct (rebPush_ok recordPush (fun s recv => concat s = recv /\ Forall (fun c => 0 < zlen c /\ zlen c mod N = 0) s) (fun _ => True) N m HN
                 (recordPush_takes N _) (length w) r outb s (map Some w) recv) as (r1 & outb1 & s1 & recv1 & E1 & W1 & P1 & L1 & Q1 & _); auto.
      { apply Forall_forall; auto. } { apply Forall_forall; auto. }
      { destruct m; [|lia]. specialize (Hcap eq_refl). inversion Hcap; subst. rewrite zlen_map. destruct HW. lia. }
      { rewrite zlen_map. unfold zlen. lia. }
      rewrite E1. cbn [rbind].
      destruct (IH r1 outb1 s1 recv1 W1 P1) as (r' & outb' & s' & recv' & E & W & L & P' & Q).
      { intros Em. rewrite L1. specialize (Hcap Em). inversion Hcap; auto. } { lia. }
      exists r', outb', s', recv'. split; [exact E|]. split; [exact W|]. split; [lia|]. split; [exact P'|].
      rewrite Q. cbn [concat]. rewrite map_app. rewrite app_assoc, Q1, <- !app_assoc. reflexivity. }
  destruct (rebInitPush_W (A := A) N HN) as [W0 P0].
  destruct (G ws (rebInitPush N) outb [] []) as (r & outb' & s & recv & E & W & L & [C F] & Q); auto.
  exists r, outb', s. split; [exact E|]. split; [exact F|].
  destruct W as [Wb Wo].
  unfold rebSync, rebSync1. unfold offsetOkPush, rassert.
  replace ((0 <=? r_offset r) && (r_offset r <? N)) with true by lia. cbn [rbind]. unfold rebSync2. cbn [r_offset r_buffer r_saved r_savedOffset r_eof r_sent].
  unfold offsetOkPush, rassert.
  replace ((0 <=? r_offset r) && (r_offset r <? N)) with true by lia. cbn [rbind].
  rewrite slice_ok by lia. cbn [rbind]. rewrite (zskipn_0 0) by lia.
  fold (pending r). assert (Lp : zlen (pending r) = r_offset r) by (unfold pending; rewrite zlen_firstn; lia).
  rewrite blit_ok by lia. cbn [rbind].
  pose proof (blit_prefix outb' 0 (pending r) ltac:(lia) ltac:(lia)) as Po. rewrite Lp in Po |- *.
  unfold recordPush. cbn [rbind]. eexists _, _, _. split; [reflexivity|].
  rewrite Z.add_0_l in *. rewrite Po, (zfirstn_0 0) by lia. cbn [app]. split; [lia|].
  rewrite C, Q, P0. reflexivity.
Qed.
Print Assumptions C21_writes_are_the_stream.

Example C21_example (B : Build) :
  rmap (fun x => snd x) (do (r, o, s) <- rebWrites recordPush 4 false (rebInitPush 4) (zrepeat None 4) [] [[1; 2; 3]; [4; 5; 6; 7; 8; 9]; []; [10]];
            rebSync recordPush 4 r o s) =
  Ok [[Some 1; Some 2; Some 3; Some 4]; [Some 5; Some 6; Some 7; Some 8]; [Some 9; Some 10]].
Proof. vm_compute. reflexivity. Qed.

(** ** C22, the buffer *)

(** A sync at any point delivers the pending frames to the sink and leaves the module exactly as it was:
    same pending frames, same offset. *)
Theorem C22_rebuffer_sync_restores :
  forall (B : Build) (A S : Type) (push : S -> list (option A) -> Z -> res S) N r outb s, rebW N r -> N <= zlen outb ->
    (forall outb' n, exists s', push s outb' n = Ok s') ->
    exists r' outb' s', rebSync push N r outb s = Ok (r', outb', s') /\
      r_buffer r' = r_buffer r /\ r_offset r' = r_offset r /\
      push s outb' (r_offset r) = Ok s' /\ zfirstn (r_offset r) outb' = pending r /\ zlen outb' = zlen outb.
Proof.
  intros B A S push N r outb s [Wb Wo] Ho Hp. unfold rebSync, rebSync1. unfold offsetOkPush, rassert.
  replace ((0 <=? r_offset r) && (r_offset r <? N)) with true by lia. cbn [rbind]. unfold rebSync2.
  cbn [r_offset r_buffer r_saved r_savedOffset r_eof r_sent]. unfold offsetOkPush, rassert.
  replace ((0 <=? r_offset r) && (r_offset r <? N)) with true by lia. cbn [rbind].
  rewrite slice_ok by lia. cbn [rbind]. rewrite (zskipn_0 0) by lia. fold (pending r).
  assert (Lp : zlen (pending r) = r_offset r) by (unfold pending; rewrite zlen_firstn; lia).
  rewrite blit_ok by lia. cbn [rbind].
  pose proof (blit_prefix outb 0 (pending r) ltac:(lia) ltac:(lia)) as Po.
  pose proof (blit_len outb 0 (pending r) ltac:(lia) ltac:(lia)) as Lo.
  set (o := zfirstn 0 outb ++ pending r ++ zskipn (0 + zlen (pending r)) outb) in *.
  destruct (Hp o (r_offset r)) as (s' & E). rewrite E. cbn [rbind].
  eexists _, _, _. split; [reflexivity|]. cbn [r_buffer r_offset]. split; [reflexivity|]. split; [reflexivity|].
  split; [exact E|]. split; [|exact Lo]. rewrite Lp, Z.add_0_l, (zfirstn_0 0) in Po by lia. exact Po.
Qed.
Print Assumptions C22_rebuffer_sync_restores.
