(** * C23, C25, C26: reading, seeking and telling, for every history of calls *)
From Verif Require Import Prelude PreludeFacts FileIO Rebuffer Reader ReaderSpec ReaderProofs IMA.

(** The abstract machine after some calls. *)
Definition aafter {V} (a : amachine V) (ops : list rop) : amachine V := fold_left (fun a o => snd (astep a o)) ops a.

Lemma arun_app {V} (a : amachine V) o1 o2 : arun a (o1 ++ o2) = arun a o1 ++ arun (aafter a o1) o2.
Proof.
  revert a. induction o1 as [|o o1 IH]; intros a; [reflexivity|]. cbn [app arun aafter fold_left].
  destruct (astep a o) as [r a'] eqn:E. cbn [snd]. rewrite IH. reflexivity.
Qed.
Lemma aafter_frames {V} ops : forall a : amachine V, a_frames (aafter a ops) = a_frames a.
Proof.
  induction ops as [|o ops IH]; intros a; [reflexivity|]. cbn [aafter fold_left]. fold (aafter (snd (astep a o)) ops).
  rewrite IH. destruct o; reflexivity.
Qed.
Lemma aafter_pos {V} ops : forall a : amachine V, 0 < zlen (a_frames a) -> 0 <= a_pos a <= zlen (a_frames a) ->
  0 <= a_pos (aafter a ops) <= zlen (a_frames a).
Proof.
  induction ops as [|o ops IH]; intros a Hl Hp; [exact Hp|]. cbn [aafter fold_left]. fold (aafter (snd (astep a o)) ops).
  assert (Ef : a_frames (snd (astep a o)) = a_frames a) by (destruct o; reflexivity).
  rewrite <- Ef. apply IH; rewrite Ef; [exact Hl|]. destruct o as [n|k| |]; cbn [astep snd a_pos]; [lia| |lia|lia].
  destruct (Z.ltb_spec k 0); [lia|]. destruct (Z.ltb_spec (zlen (a_frames a)) k); lia.
Qed.
Lemma aafter_pos_reads {V} ops : forall a : amachine V, Forall (fun o => match o with Seek k => k <= 0 | _ => True end) ops ->
  0 <= a_pos a <= zlen (a_frames a) -> 0 <= a_pos (aafter a ops) <= zlen (a_frames a).
Proof.
  induction ops as [|o ops IH]; intros a Hf Hp; [exact Hp|]. cbn [aafter fold_left]. fold (aafter (snd (astep a o)) ops).
  apply Forall_cons_iff in Hf. destruct Hf as [Ho Hf].
  assert (Ef : a_frames (snd (astep a o)) = a_frames a) by (destruct o; reflexivity).
  rewrite <- Ef. apply IH; rewrite ?Ef; [exact Hf|]. destruct o as [n|k| |]; cbn [astep snd a_pos]; [lia| |lia|lia].
  destruct (Z.ltb_spec k 0); [lia|]. destruct (Z.ltb_spec (zlen (a_frames a)) k); lia.
Qed.

(** An empty file has nowhere to seek to except frame 0; see [C25_seek_in_an_empty_file_refuted]. *)
Definition seeksAllowed (total : Z) (ops : list rop) : Prop :=
  0 < total \/ Forall (fun o => match o with Seek k => k <= 0 | _ => True end) ops.

Lemma history {B : Build} {F V} (c : codec F) (conv : F -> V) hasConv bytes first total frames ops :
  holds c bytes first total frames -> seeksAllowed total ops ->
  crun c conv hasConv true (openRead c bytes first total) ops = Ok (arun (mkA (map conv frames) 0) ops).
Proof.
  intros H Hs. destruct (holds_stream c bytes first total frames H) as (stream & HS & ->).
  apply run_refines with (first := first) (bytes := bytes); auto. apply open_inv; auto.
Qed.

Lemma holds_len {F} (c : codec F) bytes first total frames : holds c bytes first total frames -> zlen frames = total.
Proof.
  intros H. destruct (holds_stream c bytes first total frames H) as (stream & (_ & HT & _) & ->). rewrite zlen_firstn; lia.
Qed.

(** ** C23 *)

(** A file whose audio data is complete behaves, for every history of reads, seeks, tells and frame-count
    queries, exactly as an array of decoded frames with a position: every read returns the next
    min(requested, remaining) frames, nothing undefined happens and no assertion fails.  [c] is any PCM,
    G.711 or block codec, [conv] any frame-by-frame conversion (and [hasConv] whether there is one). *)
Theorem C23_reading_is_an_array_of_frames :
  forall (B : Build) (F V : Type) (c : codec F) (conv : F -> V) (hasConv : bool) bytes first total frames ops,
    holds c bytes first total frames -> seeksAllowed total ops ->
    crun c conv hasConv true (openRead c bytes first total) ops = Ok (arun (mkA (map conv frames) 0) ops).
Proof. intros. now apply history. Qed.
Print Assumptions C23_reading_is_an_array_of_frames.

(** Any way of splitting a read, after any history, gives the same frames and the same position. *)
Theorem C23_splitting_reads :
  forall (B : Build) (F V : Type) (c : codec F) (conv : F -> V) (hasConv : bool) bytes first total frames ops sizes,
    holds c bytes first total frames -> seeksAllowed total ops -> Forall (fun n => 0 <= n) sizes ->
    exists outs parts p,
      crun c conv hasConv true (openRead c bytes first total) (ops ++ map Read sizes ++ [Tell])
        = Ok (outs ++ map Frames parts ++ [Number p]) /\
      crun c conv hasConv true (openRead c bytes first total) (ops ++ [Read (fold_right Z.add 0 sizes); Tell])
        = Ok (outs ++ [Frames (concat parts); Number p]).
Proof.
  intros B F V c conv hasConv bytes first total frames ops sizes H Hs Hn.
  assert (Lf : zlen (map conv frames) = total) by (rewrite zlen_map; eapply holds_len; eauto).
  assert (S1 : seeksAllowed total (ops ++ map Read sizes ++ [Tell])).
  { destruct Hs as [Hs|Hs]; [left; auto|right]. apply Forall_app. split; [auto|]. apply Forall_app. split; [|repeat constructor].
    apply Forall_map, Forall_forall. auto. }
  assert (S2 : seeksAllowed total (ops ++ [Read (fold_right Z.add 0 sizes); Tell])).
  { destruct Hs as [Hs|Hs]; [left; auto|right]. apply Forall_app. split; [auto|repeat constructor]. }
  rewrite !(history _ _ _ _ _ _ _ _ H) by assumption. rewrite !arun_app.
  set (a0 := mkA (map conv frames) 0). set (a := aafter a0 ops).
  assert (Ha : 0 <= a_pos a <= zlen (a_frames a)).
  { unfold a. rewrite aafter_frames. destruct Hs as [Hs|Hs].
    - apply aafter_pos; unfold a0; cbn [a_frames a_pos]; lia.
    - apply aafter_pos_reads; [exact Hs|]. unfold a0; cbn [a_frames a_pos]. pose proof (zlen_nonneg (map conv frames)). lia. }
  clearbody a. exists (arun a0 ops).
  assert (G : forall sizes (a : amachine V), Forall (fun n => 0 <= n) sizes -> 0 <= a_pos a <= zlen (a_frames a) ->
     let k := Z.max 0 (Z.min (fold_right Z.add 0 sizes) (zlen (a_frames a) - a_pos a)) in
     exists parts, arun a (map Read sizes) = map Frames parts /\
       concat parts = map Some (zfirstn k (zskipn (a_pos a) (a_frames a))) /\
       aafter a (map Read sizes) = mkA (a_frames a) (a_pos a + k)).
  { clear. induction sizes as [|n sizes IH]; intros a Hn Ha; cbv zeta.
    - exists []. cbn [fold_right map arun concat aafter fold_left]. rewrite zfirstn_0 by lia. split; [reflexivity|]. split; [reflexivity|].
      destruct a as [fr p]; cbn [a_frames a_pos] in *. f_equal. lia.
    - apply Forall_cons_iff in Hn. destruct Hn as [Hn0 Hn].
      assert (Sg : 0 <= fold_right Z.add 0 sizes) by (clear -Hn; induction Hn; cbn [fold_right]; lia).
      cbn [map arun aafter fold_left astep snd].
      set (k0 := Z.max 0 (Z.min n (zlen (a_frames a) - a_pos a))).
      destruct (IH (mkA (a_frames a) (a_pos a + k0)) Hn) as (parts & E1 & E2 & E3); cbn [a_frames a_pos] in *; [lia|].
      exists (map Some (zfirstn k0 (zskipn (a_pos a) (a_frames a))) :: parts).
      cbn [map]. rewrite E1. split; [reflexivity|]. cbn [concat fold_right]. rewrite E2. split.
      + rewrite <- map_app. f_equal.
        replace (zskipn (a_pos a + k0) (a_frames a)) with (zskipn k0 (zskipn (a_pos a) (a_frames a))) by (rewrite zskipn_zskipn by lia; reflexivity).
        rewrite <- zfirstn_split by lia. f_equal. lia.
      + unfold aafter in E3. rewrite E3. f_equal. lia. }
  destruct (G sizes a Hn Ha) as (parts & E1 & E2 & E3). cbv zeta in *. exists parts. eexists. split.
  - rewrite E1, E3. cbn [arun astep a_pos]. reflexivity.
  - cbn [arun astep a_pos]. rewrite E2. reflexivity.
Qed.
Print Assumptions C23_splitting_reads.

(** Instances: 16-bit little-endian mono PCM, and one QuickTime IMA packet read across the packet. *)
Definition pcm16 : codec Z := PerFrame true 2 (fun b => s16 (le_val b)).
Example C23_example_pcm (B : Build) :
  holds pcm16 [1;2;3;4; 10;0; 20;0; 255;255; 7] 4 3 [10; 20; -1] /\
  crun pcm16 Z.opp true true (openRead pcm16 [1;2;3;4; 10;0; 20;0; 255;255; 7] 4 3) [Read 2; Tell; Seek 1; Read 5; Read 1; FrameCount]
    = Ok [Frames [Some (-10); Some (-20)]; Number 2; Number 1; Frames [Some (-20); Some 1]; Frames []; Number 3].
Proof. split; [unfold holds, pcm16; repeat split; vm_compute; congruence|]. vm_compute. reflexivity. Qed.
Definition imaqt : codec (list Z) := Blocks imaQT_fpp (imaQT_bpp 1) (fun b => rmap fst (decodeBlockQT imaQT_fpp 1 b)).
Definition qtfile : list Z := 0 :: [5; 8] ++ repeat 23 32 ++ [255; 130] ++ repeat 200 32.
Example C23_example_ima (B : Build) :
  (exists frames, holds imaqt qtfile 1 100 frames /\ zlen frames = 100) /\
  rmap (map (fun o => match o with Frames l => zlen l | Number z => z end))
    (crun imaqt (fun x => x) false true (openRead imaqt qtfile 1 100) [Read 10; Seek 70; Read 1; Tell; Seek 63; Read 50])
    = Ok [10; 70; 1; 71; 63; 37].
Proof.
  split; [|vm_compute; reflexivity].
  assert (Bx : exists blocks, rmapM (fun b => rmap fst (decodeBlockQT imaQT_fpp 1 b)) (chunksOf 2 (imaQT_bpp 1) (zskipn 1 qtfile)) = Ok blocks /\
            forallb (fun b => zlen b =? 64) blocks = true /\ zlen (zfirstn 100 (concat blocks)) = 100).
  { eexists. split; [vm_compute; reflexivity|]. split; vm_compute; reflexivity. }
  destruct Bx as (blocks & B1 & B2 & B3). exists (zfirstn 100 (concat blocks)). split; [|exact B3].
  unfold holds, imaqt. split; [lia|]. split; [lia|]. split; [reflexivity|]. split; [reflexivity|].
  exists 2%nat, blocks. split; [vm_compute; congruence|]. split; [exact B1|]. split.
  - apply Forall_forall. intros b Hb. rewrite forallb_forall in B2. specialize (B2 b Hb). apply Z.eqb_eq in B2. exact B2.
  - split; [vm_compute; congruence|reflexivity].
Qed.

(** Without the requirement that the audio data is complete the property is false: the header promises three
    frames and the file ends after two.  One read of three frames returns none of them; reading two frames
    first returns both. *)
Theorem C23_truncated_file_refuted :
  forall B : Build, exists bytes, crun pcm16 (fun x => x) false true (openRead pcm16 bytes 0 3) [Read 3; Tell] = Ok [Frames []; Number 0] /\
    crun pcm16 (fun x => x) false true (openRead pcm16 bytes 0 3) [Read 2; Read 1; Tell]
      = Ok [Frames [Some 10; Some 20]; Frames []; Number 2].
Proof. intros B. exists [10;0; 20;0]. split; vm_compute; reflexivity. Qed.
Print Assumptions C23_truncated_file_refuted.

(** A block codec whose last block is missing: the first read returns nothing; the next one fails an
    assertion of the library where those are compiled in, and delivers eight frames nobody wrote (through a
    conversion) or none (without one) where they are not. *)
Definition toyBlocks : codec Z := Blocks 4 2 (fun b => Ok [nth 0 b 0; 0; 0; nth 1 b 0]).
Theorem C23_truncated_blocks_refuted :
  exists bytes,
    (forall B : Build, crun toyBlocks (fun x => x) false true (openRead toyBlocks bytes 0 8) [Read 4; Read 4; Tell]
                       = Ok [Frames [Some 1; Some 0; Some 0; Some 2]; Frames []; Number 4]) /\
    crun (B := Debug) toyBlocks (fun x => x) false true (openRead toyBlocks bytes 0 8) [Read 8; Read 1] = Abort /\
    crun (B := Release) toyBlocks (fun x => x) false true (openRead toyBlocks bytes 0 8) [Read 8; Read 8; Tell]
      = Ok [Frames []; Frames []; Number 0] /\
    crun (B := Release) toyBlocks (fun x => x) true true (openRead toyBlocks bytes 0 8) [Read 8; Read 8; Tell]
      = Ok [Frames []; Frames [None; None; None; None; None; None; None; None]; Number 8].
Proof. exists [1; 2; 3]. split; [intros B; vm_compute; reflexivity|]. split; [|split]; vm_compute; reflexivity. Qed.
Print Assumptions C23_truncated_blocks_refuted.

(** A stream that cannot be seeked has an unknown number of frames; with a conversion in the chain the
    end of the data is never noticed, and the read delivers frames nobody wrote. *)
Theorem C23_end_of_stream_unnoticed_refuted :
  forall B : Build, exists bytes, crun pcm16 (fun x => x) true false (openRead pcm16 bytes 0 (-1)) [Read 4] = Ok [Frames [Some 10; Some 20; None; None]] /\
    crun pcm16 (fun x => x) false false (openRead pcm16 bytes 0 (-1)) [Read 4] = Ok [Frames [Some 10; Some 20]].
Proof. intros B. exists [10;0; 20;0]. split; vm_compute; reflexivity. Qed.
Print Assumptions C23_end_of_stream_unnoticed_refuted.

(** ** C25 *)

(** After any history, seeking to frame k of a nonempty file returns k, makes k the reported position, and
    the next read delivers frames k, k+1, ... *)
Theorem C25_seek_then_read :
  forall (B : Build) (F V : Type) (c : codec F) (conv : F -> V) (hasConv : bool) bytes first total frames ops k n,
    holds c bytes first total frames -> 0 < total -> 0 <= k <= total -> 0 <= n ->
    exists outs,
      crun c conv hasConv true (openRead c bytes first total) (ops ++ [Seek k; Tell; Read n; Tell]) =
      Ok (outs ++ [Number k; Number k;
                   Frames (map Some (map conv (zfirstn (Z.min n (total - k)) (zskipn k frames))));
                   Number (k + Z.min n (total - k))]).
Proof.
  intros B F V c conv hasConv bytes first total frames ops k n H Ht Hk Hn.
  rewrite (history _ _ _ _ _ _ _ _ H) by (left; auto). rewrite arun_app. eexists. do 2 f_equal.
  set (a := aafter _ ops). assert (Ef : a_frames a = map conv frames) by (unfold a; rewrite aafter_frames; reflexivity).
  clearbody a. cbn [arun astep a_frames a_pos]. rewrite Ef, zlen_map, (holds_len _ _ _ _ _ H).
  destruct (Z.ltb_spec k 0); [lia|]. destruct (Z.ltb_spec total k); [lia|].
  rewrite Z.max_r by lia. do 3 f_equal. unfold zfirstn, zskipn. rewrite skipn_map, firstn_map. reflexivity.
Qed.
Print Assumptions C25_seek_then_read.

(** A negative argument changes nothing; an argument beyond the end goes to the last frame. *)
Theorem C25_seek_outside :
  forall (B : Build) (F V : Type) (c : codec F) (conv : F -> V) (hasConv : bool) bytes first total frames ops k,
    holds c bytes first total frames -> 0 < total ->
    (k < 0 -> exists outs p, crun c conv hasConv true (openRead c bytes first total) (ops ++ [Tell; Seek k; Tell])
              = Ok (outs ++ [Number p; Number p; Number p])) /\
    (total < k -> exists outs, crun c conv hasConv true (openRead c bytes first total) (ops ++ [Seek k; Tell])
              = Ok (outs ++ [Number (total - 1); Number (total - 1)])).
Proof.
  intros B F V c conv hasConv bytes first total frames ops k H Ht.
  rewrite !(history _ _ _ _ _ _ _ _ H) by (left; auto). rewrite !arun_app.
  set (a := aafter _ ops). assert (Ef : a_frames a = map conv frames) by (unfold a; rewrite aafter_frames; reflexivity).
  clearbody a. split; intros Hk; cbn [arun astep a_frames a_pos]; rewrite Ef, zlen_map, (holds_len _ _ _ _ _ H).
  - destruct (Z.ltb_spec k 0); [|lia]. eexists _, _. reflexivity.
  - destruct (Z.ltb_spec k 0); [lia|]. destruct (Z.ltb_spec total k); [|lia]. eexists. reflexivity.
Qed.
Print Assumptions C25_seek_outside.

(** Whatever the calls, every reported position is within the file. *)
Theorem C25_position_stays_inside :
  forall (B : Build) (F V : Type) (c : codec F) (conv : F -> V) (hasConv : bool) bytes first total frames ops,
    holds c bytes first total frames -> 0 < total ->
    exists outs p, crun c conv hasConv true (openRead c bytes first total) (ops ++ [Tell]) = Ok (outs ++ [Number p]) /\
      0 <= p <= total.
Proof.
  intros B F V c conv hasConv bytes first total frames ops H Ht.
  rewrite (history _ _ _ _ _ _ _ _ H) by (left; auto). rewrite arun_app. eexists _, _. split; [reflexivity|].
  assert (L : zlen (map conv frames) = total) by (rewrite zlen_map; eapply holds_len; eauto).
  rewrite <- L. apply aafter_pos; cbn [a_frames a_pos]; lia.
Qed.
Print Assumptions C25_position_stays_inside.

(** A file without frames: seeking forward reports success and frame -1; the next read then asks the file
    module for the frames from -1 and finds the file positioned before the data. *)
Theorem C25_seek_in_an_empty_file_refuted :
  forall B : Build, exists bytes, holds pcm16 bytes 4 0 [] /\
    crun pcm16 (fun x => x) false true (openRead pcm16 bytes 4 0) [Seek 1; Tell; Read 1; Tell]
      = Ok [Number (-1); Number (-1); Frames [Some 513]; Number 0].
Proof. intros B. exists [7; 7; 1; 2]. split; [unfold holds, pcm16; repeat split; vm_compute; congruence|vm_compute; reflexivity]. Qed.
Print Assumptions C25_seek_in_an_empty_file_refuted.

(** ** C26 *)

(** What a user who watches the results expects the position to be: a seek sets it to the frame it reports,
    a read advances it by the number of frames it returned. *)
Definition follow {V} (p : Z) (call : rop * rout V) : Z :=
  match call with
  | (Read _, Frames l) => p + zlen l
  | (Seek _, Number z) => z
  | _ => p
  end.

Theorem C26_tell_counts_frames_since_the_last_seek :
  forall (B : Build) (F V : Type) (c : codec F) (conv : F -> V) (hasConv : bool) bytes first total frames ops,
    holds c bytes first total frames -> seeksAllowed total ops ->
    exists outs, crun c conv hasConv true (openRead c bytes first total) ops = Ok outs /\
      crun c conv hasConv true (openRead c bytes first total) (ops ++ [Tell]) =
        Ok (outs ++ [Number (fold_left follow (combine ops outs) 0)]).
Proof.
  intros B F V c conv hasConv bytes first total frames ops H Hs.
  assert (S1 : seeksAllowed total (ops ++ [Tell])).
  { destruct Hs as [Hs|Hs]; [left; auto|right]. apply Forall_app. split; [auto|repeat constructor]. }
  rewrite !(history _ _ _ _ _ _ _ _ H) by assumption. eexists. split; [reflexivity|]. rewrite arun_app.
  do 2 f_equal. cbn [arun astep]. do 2 f_equal.
  assert (L : zlen (map conv frames) = total) by (rewrite zlen_map; eapply holds_len; eauto).
  set (a := mkA (map conv frames) 0). change 0 with (a_pos a) at 1.
  assert (Ha : 0 <= a_pos a <= zlen (a_frames a)) by (unfold a; cbn [a_frames a_pos]; pose proof (zlen_nonneg (map conv frames)); lia).
  assert (Lt : zlen (a_frames a) = total) by exact L. clearbody a. clear S1. revert a Ha Lt Hs. induction ops as [|o ops IH]; intros a Ha Lt Hs; [reflexivity|].
  cbn [aafter fold_left arun]. fold (aafter (snd (astep a o)) ops). destruct (astep a o) as [r a'] eqn:E. cbn [snd combine fold_left].
  assert (Ea : follow (a_pos a) (o, r) = a_pos a' /\ a_frames a' = a_frames a /\ 0 <= a_pos a' <= zlen (a_frames a)).
  { destruct o as [n|k| |]; cbn [astep] in E; injection E as <- <-; cbn [follow a_pos a_frames].
    - rewrite zlen_map, zlen_firstn, zlen_skipn by lia. split; [lia|]. split; [reflexivity|lia].
    - split; [reflexivity|]. split; [reflexivity|]. destruct (Z.ltb_spec k 0); [lia|].
      destruct (Z.ltb_spec (zlen (a_frames a)) k); [|lia]. destruct Hs as [Hs|Hs]; [lia|].
      apply Forall_cons_iff in Hs. destruct Hs. lia.
    - auto.
    - auto. }
  destruct Ea as (Ea & Ef & Hb). rewrite Ea. apply IH; [rewrite Ef; exact Hb|rewrite Ef; exact Lt|].
  destruct Hs as [Hs|Hs]; [left; exact Hs|right; apply Forall_cons_iff in Hs; tauto].
Qed.
Print Assumptions C26_tell_counts_frames_since_the_last_seek.

Example C26_example (B : Build) :
  crun pcm16 (fun x => x) false true (openRead pcm16 [1;0;2;0;3;0;4;0;5;0] 0 5) [Read 2; Seek 3; Read 1; Tell]
    = Ok [Frames [Some 1; Some 2]; Number 3; Frames [Some 4]; Number 4].
Proof. vm_compute. reflexivity. Qed.
