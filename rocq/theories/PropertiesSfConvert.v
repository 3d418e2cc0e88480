(** * C73: sfconvert copies the whole file or says that it did not *)
From Coq Require Import Floats.SpecFloat.
From Verif Require Import Prelude PreludeFacts FileIO Rebuffer RebufferProofs Reader ReaderSpec ReaderProofs Writer WriterSpec WriterProofs WriterHistory PropertiesWriter ByteOrder Convert Float FloatFacts FloatConv Arrange ArrangeProofs Rates Memory MemoryProofs Virtual VirtualWrite PropertiesVirtual PropertiesVirtualWrite SfConvert.
From Verif Require Import Codecs CodecsProofs PropertiesRaw PropertiesBuffers PropertiesBytes ConvertProofs.
From Coq Require Import Lia.

(** ** Specification *)
(** What sfconvert sets on the output file: its virtual channels and sample format become the input's. *)
Definition outSettings (inFormat f v : format) : settings :=
  setAll (ST f v None) [SetChannels (channelCount inFormat); SetSampleFormat (sampleFormat inFormat) (sampleWidth inFormat)].
(** afReadFrames returned exactly these frames. *)
Definition gave (l : list frame) : rout (res frame) := Frames (map Some (map Ok l)).

(** ** The loop *)
Lemma stored1_gave l : stored1 (map Some (map Ok l)) = Ok l.
Proof. induction l as [|x l IH]; [reflexivity|]. cbn [map stored1 rbind]. rewrite IH. reflexivity. Qed.
Lemma stored1_inv l : forall fr, stored1 l = Ok fr -> l = map Some (map Ok fr).
Proof.
  induction l as [|x l IH]; intros fr H; cbn [stored1] in H; [assert (fr = []) as -> by congruence; reflexivity|]. destruct x as [x|]; [|discriminate].
  apply rbind_Ok in H as (a & -> & H). apply rbind_Ok in H as (r & Hr & H). assert (fr = a :: r) as -> by congruence. cbn [map]. rewrite <- (IH r Hr). reflexivity.
Qed.
Section Loop.
Context {B : Build} {E : Type}.
Variable wrapv : bool.
Variable host : order.
Variable cin : codec frame.
Variable cout : wcodec frame E.
Variable junk : frame.
Variable upd : file -> wtrack -> file.
Variable cap : Z.
Notation copyLoop := (copyLoop wrapv host cin cout junk cap).
Notation vrun := (vrun wrapv host cin true).
Notation yrun := (yrun wrapv host cout junk true upd cap).
Notation vRead := (vRead wrapv host cin true).
Notation yWrite := (yWrite wrapv host cout junk true cap).

Lemma setup_user st st' : setup wrapv host cin st = Ok (Some st') -> v_user st' = v_user st.
Proof.
  unfold setup. intros H. apply rbind_Ok in H as (p & _ & H). destruct (compressed (v_user st)); [discriminate|]. apply rbind_Ok in H as ([ms|] & _ & H); [|discriminate].
  apply rbind_Ok in H as (tv & _ & H). apply rbind_Ok in H as (nv & _ & H). match type of H with Ok (Some ?x) = _ => assert (st' = x) as -> by congruence end. reflexivity.
Qed.
Lemma refresh_user st st' : refresh wrapv host cin st = Ok (Some st') -> v_user st' = v_user st.
Proof. unfold refresh. destruct (v_dirty st); [apply setup_user|]. intros H. assert (st' = st) as -> by congruence. reflexivity. Qed.
Lemma read_user st n r st' : vRead st n = Ok (r, st') -> v_user st' = v_user st.
Proof.
  unfold Virtual.vRead. intros H. apply rbind_Ok in H as ([st1|] & R & H); [|assert (st' = st) as -> by congruence; reflexivity]. apply rbind_Ok in H as ((l & rs) & _ & H).
  assert (st' = onRS st1 rs) as -> by congruence. unfold onRS. cbn [v_user]. now apply refresh_user.
Qed.
Lemma count_user st r st' : vFrameCount wrapv host cin st = Ok (r, st') -> v_user st' = v_user st.
Proof.
  unfold vFrameCount. intros H. apply rbind_Ok in H as ([st1|] & R & H); [|assert (st' = st) as -> by congruence; reflexivity]. assert (st' = st1) as -> by congruence. now apply refresh_user.
Qed.

(** The portions: all of 65536 frames, but for the last. *)
Fixpoint portions (ls : list (list frame)) : Prop :=
  match ls with [] => True | l :: ls' => 0 < zlen l /\ zlen l = Z.min bufferFrames (zlen (concat (l :: ls'))) /\ portions ls' end.
Lemma copyLoop_ok size ls : forall fuel total written vst yst yst',
  portions ls -> total - written = zlen (concat ls) -> zlen (concat ls) <= Z.of_nat fuel -> 
  bufferFrames * bytesPerFrame true (v_user vst) <= size -> 0 <= bytesPerFrame true (v_user vst) ->
  vrun vst (map (fun l => VRead (zlen l)) ls) = Ok (map gave ls) ->
  yrun yst (map YWrite ls) = Ok (map zlen ls, yst') ->
  copyLoop fuel size total written vst yst = Ok (true, yst').
Proof.
  induction ls as [|l ls IH]; intros fuel total written vst yst yst' P T Fu S0 S1 Rv Ry.
  - change (zlen (concat (@nil (list frame)))) with 0 in T. assert (yst' = yst) as -> by (cbn in Ry; congruence). destruct fuel; cbn [SfConvert.copyLoop]; replace (written <? total) with false by lia; reflexivity.
  - destruct P as (P1 & P2 & P3). cbn [concat] in *. rewrite zlen_app in *. pose proof (zlen_nonneg (concat ls)) as NN. destruct fuel as [|fuel]; [lia|]. cbn [SfConvert.copyLoop]. replace (written <? total) with true by lia. cbv zeta.
    replace (if bufferFrames <? total - written then bufferFrames else total - written) with (zlen l) by (rewrite T; unfold bufferFrames in *; destruct (Z.ltb_spec 65536 (zlen l + zlen (concat ls))); lia).
    replace (size <? zlen l * bytesPerFrame true (v_user vst)) with false by (symmetry; apply Z.ltb_ge; eapply Z.le_trans; [|exact S0]; apply Z.mul_le_mono_nonneg_r; lia).
    cbn [map Virtual.vrun vstep] in Rv. apply rbind_Ok in Rv as ((r & vst1) & R1 & Rv). apply rbind_Ok in Rv as (rs & R2 & Rv). assert (r = gave l /\ rs = map gave ls) as [-> ->] by (split; congruence). clear Rv.
    rewrite R1. cbn [rbind gave]. rewrite !zlen_map, Z.ltb_irrefl, stored1_gave. cbn [rbind].
    cbn [map VirtualWrite.yrun ystep] in Ry. apply rbind_Ok in Ry as ((n & yst1) & Y1 & Ry). apply rbind_Ok in Ry as ((ns & yst2) & Y2 & Ry). assert (n = zlen l /\ ns = map zlen ls /\ yst2 = yst') as (-> & -> & ->) by (repeat split; congruence). clear Ry.
    rewrite Y1. cbn [rbind]. rewrite Z.ltb_irrefl. apply IH; auto; try lia; rewrite (read_user _ _ _ _ R1); assumption.
Qed.

(** Whatever the input does: the loop ends well only after enough frames were delivered and written. *)
Lemma writeLoop_count conv fuel : forall (st : wstate frame E) (samples : list frame) k n st' r, k <= n -> writeLoop cout conv junk true fuel st samples k n = Ok (st', r) -> r = n.
Proof.
  induction fuel as [|fuel IH]; intros st samples k n st' r K H; cbn [writeLoop] in H; destruct (Z.ltb_spec k n); cbn [negb] in H; try discriminate; try (assert (r = k) by congruence; lia).
  apply rbind_Ok in H as (chunk & _ & H). apply rbind_Ok in H as (st1 & _ & H). apply IH in H; [exact H|]. unfold ATOMIC. destruct (Z.leb_spec k (n - 1024)); lia.
Qed.
Lemma yWrite_count yst l n yst' : yWrite yst l = Ok (n, yst') -> n = -1 \/ n = zlen l.
Proof.
  unfold VirtualWrite.yWrite. intros H. apply rbind_Ok in H as ([st1|] & _ & H); [|left; congruence]. apply rbind_Ok in H as (l' & L & H). apply rbind_Ok in H as ((k & w) & W & H). right.
  apply rmapM_zlen in L. assert (n = k) as -> by congruence. clear H. unfold afWriteFrames in W. apply rbind_Ok in W as ((st2 & v) & W1 & W). apply writeLoop_count in W1; [|apply zlen_nonneg]. assert (k = v) by congruence. change (list smp) with frame in *. congruence.
Qed.
Lemma copyLoop_inv size : forall fuel total written vst yst yst',
  copyLoop fuel size total written vst yst = Ok (true, yst') ->
  exists ns ls, vrun vst (map VRead ns) = Ok (map gave ls) /\ yrun yst (map YWrite ls) = Ok (map zlen ls, yst') /\ Forall2 (fun n l => 0 < n <= bufferFrames /\ n <= zlen l) ns ls /\ total - written <= zlen (concat ls) /\ (total <= written -> ls = []).
Proof.
  induction fuel as [|fuel IH]; intros total written vst yst yst' H; cbn [SfConvert.copyLoop] in H; destruct (Z.ltb_spec written total) as [L|L]; try discriminate.
  - assert (yst' = yst) as -> by congruence. exists [], []. cbn. repeat split; auto; change (zlen (@nil frame)) with 0; lia.
  - cbv zeta in H. set (k := if bufferFrames <? total - written then bufferFrames else total - written) in *. assert (K : 0 < k <= bufferFrames) by (unfold k, bufferFrames in *; destruct (Z.ltb_spec 65536 (total - written)); lia). clearbody k.
    destruct (size <? _); [discriminate|]. apply rbind_Ok in H as ((r & vst1) & R1 & H). destruct r as [l|n]; [|destruct (n <? k); discriminate]. destruct (Z.ltb_spec (zlen l) k) as [L1|L1]; [discriminate|].
    apply rbind_Ok in H as (fr & S1 & H). apply rbind_Ok in H as ((n & yst1) & Y1 & H). destruct (Z.ltb_spec n (zlen l)) as [L2|L2]; [discriminate|].
    apply stored1_inv in S1. subst l. rewrite !zlen_map in *. assert (n = zlen fr) as -> by (destruct (yWrite_count _ _ _ _ Y1); lia).
    apply IH in H as (ns & ls & V & Y & F2 & T & _). exists (k :: ns), (fr :: ls). split; [cbn [map Virtual.vrun vstep]; rewrite R1; cbn [rbind]; rewrite V; reflexivity|].
    split; [cbn [map VirtualWrite.yrun ystep]; rewrite Y1; cbn [rbind]; rewrite Y; reflexivity|]. split; [constructor; [lia|exact F2]|]. cbn [concat]. rewrite zlen_app. split; lia.
  - assert (yst' = yst) as -> by congruence. exists [], []. cbn. repeat split; auto; change (zlen (@nil frame)) with 0; lia.
Qed.
End Loop.

(** ** The buffer *)
Lemma one_float : fOfZ 1 = S754_finite false 8388608 (0 - 23). Proof. vm_compute. reflexivity. Qed.
Lemma virtualFrameSize_ok v : 0 < bytesPerSample true v * channelCount v < 2 ^ 24 -> virtualFrameSize v = Ok (bytesPerSample true v * channelCount v).
Proof.
  intros Hn. unfold virtualFrameSize. set (n := bytesPerSample true v * channelCount v) in *. clearbody n. change (2 ^ 24) with 16777216 in Hn. unfold ck32. assert (I0 : inS 32 n = true) by (apply inS_spec; change (2 ^ (32 - 1)) with 2147483648; lia). rewrite I0. cbn [rbind].
  destruct (fOfZ_parts n) as (m & e & F1 & F2 & F3 & F4 & F5); [change (2 ^ 24) with 16777216; lia|]. rewrite one_float, F1. rewrite fdiv_pow2 by (auto; lia). rewrite Z.sub_0_r, <- F1.
  unfold toInt. rewrite (truncZ_val 24 128 _ n 0 ltac:(lia) F5). rewrite Z.quot_1_r, I0. reflexivity.
Qed.
Lemma frame_bytes v : 0 < bytesPerSample true v * channelCount v < 2 ^ 24 -> 0 <= channelCount v < 2 ^ 64 -> bytesPerFrame true v = bytesPerSample true v * channelCount v.
Proof. intros H C. unfold bytesPerFrame. rewrite (u64_small (channelCount v)) by exact C. apply u64_small. change (2 ^ 24) with 16777216 in H. change (2 ^ 64) with 18446744073709551616. lia. Qed.
Lemma copyBuffer_ok v : 0 < bytesPerSample true v * channelCount v < 32768 -> copyBuffer v = Ok (bufferFrames * (bytesPerSample true v * channelCount v)).
Proof.
  intros H. unfold copyBuffer. rewrite virtualFrameSize_ok by (change (2 ^ 24) with 16777216; lia). cbn [rbind]. unfold ck32, bufferFrames. set (n := bytesPerSample true v * channelCount v) in *. clearbody n.
  assert (I0 : inS 32 (65536 * n) = true) by (apply inS_spec; change (2 ^ (32 - 1)) with 2147483648; lia). rewrite I0. reflexivity.
Qed.

(** ** Reading in portions *)
Fixpoint cutUp (fuel : nat) (l : list frame) : list (list frame) :=
  match fuel with O => [] | S k => match l with [] => [] | _ => zfirstn bufferFrames l :: cutUp k (zskipn bufferFrames l) end end.
Lemma cutUp_ok fuel : forall l, zlen l <= Z.of_nat fuel -> concat (cutUp fuel l) = l /\ portions (cutUp fuel l).
Proof.
  induction fuel as [|fuel IH]; intros l L; pose proof (zlen_nonneg l).
  - destruct l; [split; [reflexivity|exact I]|]. rewrite zlen_cons in L. pose proof (zlen_nonneg l). lia.
  - destruct l as [|x l]; [split; [reflexivity|exact I]|]. cbn [cutUp]. set (a := x :: l) in *. assert (Pa : 0 < zlen a) by (unfold a; rewrite zlen_cons; pose proof (zlen_nonneg l); lia). clearbody a.
    destruct (IH (zskipn bufferFrames a)) as [I1 I2]; [rewrite zlen_skipn by (unfold bufferFrames; lia); unfold bufferFrames; lia|]. cbn [concat portions]. rewrite I1, zfirstn_skipn. split; [reflexivity|].
    rewrite zlen_firstn by (unfold bufferFrames; lia). unfold bufferFrames in *. split; [lia|]. split; [lia|exact I2].
Qed.
Lemma rmapM_split {X Y} (f : X -> res Y) (a b : list Y) : forall l, rmapM f l = Ok (a ++ b) -> map f (zfirstn (zlen a) l) = map Ok a /\ rmapM f (zskipn (zlen a) l) = Ok b.
Proof.
  induction a as [|y a IH]; intros l H.
  - change (zlen (@nil Y)) with 0. rewrite zskipn_0 by lia. split; [reflexivity|exact H].
  - destruct l as [|x l]; cbn [rmapM app] in H; [discriminate|]. apply rbind_Ok in H as (z & Hz & H). apply rbind_Ok in H as (r & Hr & H). assert (z = y /\ r = a ++ b) as [-> ->] by (split; congruence).
    destruct (IH l Hr) as [I1 I2]. rewrite zlen_cons. pose proof (zlen_nonneg a). unfold zfirstn, zskipn in *. replace (Z.to_nat (1 + zlen a)) with (S (Z.to_nat (zlen a))) by lia. cbn [firstn skipn map]. rewrite Hz, I1. split; [reflexivity|exact I2].
Qed.
Lemma srun_reads wrapv host frames s ls : forall pos, 0 <= pos -> rmapM (view wrapv host s) (zskipn pos frames) = Ok (concat ls) ->
  srun wrapv host frames s pos (map (fun l => VRead (zlen l)) ls) = map gave ls.
Proof.
  induction ls as [|l ls IH]; intros pos P H; [reflexivity|]. cbn [map srun]. cbn [concat] in H. pose proof (rmapM_length _ _ _ H) as L. rewrite app_length in L. destruct (rmapM_split _ _ _ _ H) as [H1 H2].
  pose proof (zlen_nonneg l). assert (K : Z.max 0 (Z.min (zlen l) (zlen frames - pos)) = zlen l).
  { assert (LL : zlen (zskipn pos frames) = zlen l + zlen (concat ls)) by (unfold zlen; rewrite <- L; lia). rewrite zlen_skipn in LL by lia. pose proof (zlen_nonneg (concat ls)). lia. }
  rewrite K. rewrite zskipn_zskipn in H2 by lia. rewrite (IH (pos + zlen l)) by (auto; lia). unfold gave. rewrite H1. reflexivity.
Qed.
Lemma legal_reads wrapv host rate total s ns : convertible wrapv host s -> forall pos m, legal wrapv host rate total s pos m false (map VRead ns).
Proof. intros C. induction ns as [|n ns IH]; intros pos m; [exact I|]. cbn [map legal]. split; [exact C|]. split; [now right|apply IH]. Qed.

(** ** Writing the portions *)
Definition writeOps (inF : format) (ls : list (list frame)) : list yop :=
  YCall (SetChannels (channelCount inF)) :: YCall (SetSampleFormat (sampleFormat inF) (sampleWidth inF)) :: map YWrite ls.
Lemma apply_out inF f v : apply (apply (ST f v None) (SetChannels (channelCount inF))) (SetSampleFormat (sampleFormat inF) (sampleWidth inF)) = outSettings inF f v.
Proof. reflexivity. Qed.
Lemma wlegal_writes wrapv host rate s ls : storable wrapv host s -> forall m, wlegal wrapv host rate s m false (map YWrite ls).
Proof. intros C. induction ls as [|l ls IH]; intros m; [exact C|]. cbn [map wlegal]. split; [exact C|]. split; [now right|apply IH]. Qed.
Lemma rmapM_app_ok {X Y} (f : X -> res Y) a b : rmapM f (a ++ b) = do x <- rmapM f a; do y <- rmapM f b; Ok (x ++ y).
Proof.
  induction a as [|x a IH]; cbn [app rmapM rbind]; [destruct (rmapM f b); reflexivity|]. destruct (f x); try reflexivity. cbn [rbind]. rewrite IH. destruct (rmapM f a); try reflexivity. cbn [rbind]. destruct (rmapM f b); reflexivity.
Qed.
Lemma stored_writes wrapv host s ls : stored wrapv host s (map YWrite ls) = rmapM (into wrapv host s) (concat ls).
Proof. induction ls as [|l ls IH]; [reflexivity|]. cbn [map stored concat]. rewrite rmapM_app_ok, IH. reflexivity. Qed.
Lemma answers_writes s ls : forall n, answers s n (map YWrite ls) = map zlen ls.
Proof. induction ls as [|l ls IH]; intros n; [reflexivity|]. cbn [map answers]. now rewrite IH. Qed.

Lemma sfconvert_runs (B : Build) E wrapv host cin (cout : wcodec frame E) junk upd cap inF vst yst total ls s n rs st :
  0 < bytesPerSample true (v_user vst) * channelCount (v_user vst) < 32768 -> 0 <= channelCount (v_user vst) < 2 ^ 64 ->
  portions ls -> zlen (concat ls) = total ->
  vrun wrapv host cin true vst (VFrameCount :: map (fun l => VRead (zlen l)) ls) = Ok (Number total :: map gave ls) ->
  rs = answers s n (writeOps inF ls) ->
  yrun wrapv host cout junk true upd cap yst (writeOps inF ls ++ [YSync]) = Ok (rs ++ [0], st) ->
  sfconvert wrapv host cin cout junk upd cap inF vst yst = Ok (Some (ws_file (y_ws st))).
Proof.
  intros Hb Hc P T Rv Ers Ry. unfold writeOps in *. unfold sfconvert. cbn [app VirtualWrite.yrun ystep] in Ry. apply rbind_Ok in Ry as ((a & y1) & Y1 & Ry). apply rbind_Ok in Ry as ((la & yl) & Y2 & Ry).
  cbn [VirtualWrite.yrun ystep] in Y2. apply rbind_Ok in Y2 as ((b & y2) & Y2 & Y3). apply rbind_Ok in Y3 as ((lb & yb) & Y3 & Y4). rewrite Y1. cbn [rbind]. rewrite Y2. cbn [rbind].
  rewrite yrun_app in Y3. apply rbind_Ok in Y3 as ((x & y3) & Y3 & Y5). apply rbind_Ok in Y5 as ((z & y4) & Y5 & Y6).
  cbn [answers] in Ers. rewrite answers_writes in Ers.
  assert (Y7 : exists d, ySync wrapv host cout junk true upd cap y3 = Ok (d, y4) /\ z = [d]).
  { cbn [VirtualWrite.yrun ystep] in Y5. apply rbind_Ok in Y5 as ((d & y5) & Y5 & Y7). cbn [rbind] in Y7. exists d. split; [|congruence]. assert (y5 = y4) as -> by congruence. exact Y5. }
  destruct Y7 as (d & Y7 & ->). assert (lb = x ++ [d]) as -> by congruence. assert (la = b :: x ++ [d]) as -> by congruence. assert (Eq : a :: b :: x ++ [d] = rs ++ [0]) by congruence. rewrite Ers in Eq. cbn [app] in Eq.
  assert (X : x ++ [d] = map zlen ls ++ [0]) by congruence. apply app_inj_tail in X as [-> ->].
  assert (st = y4) as -> by congruence. clear Eq Ers Ry Y4 Y6.
  unfold copyAudioData. rewrite copyBuffer_ok by exact Hb. cbn [rbind].
  cbn [Virtual.vrun vstep] in Rv. apply rbind_Ok in Rv as ((r & v1) & R1 & Rv). apply rbind_Ok in Rv as (rl & R2 & Rv). assert (r = Number total /\ rl = map gave ls) as [-> ->] by (split; congruence). rewrite R1. cbn [rbind].
  pose proof (count_user _ _ _ _ _ _ R1) as U1. pose proof (zlen_nonneg (concat ls)).
  rewrite (copyLoop_ok wrapv host cin cout junk upd cap _ ls (Z.to_nat total) total 0 v1 y2 y3); auto; try lia.
  - cbn [rbind]. rewrite Y7. reflexivity.
  - rewrite U1, frame_bytes; [lia|change (2 ^ 24) with 16777216; lia|exact Hc].
  - rewrite U1, frame_bytes; [lia|change (2 ^ 24) with 16777216; lia|exact Hc].
Qed.

(** ** C73 *)

(** The frame of the input as sfconvert gets it is a handful of bytes: at 32768 and more the size of its buffer overflows
    ([C73_wide_frames_refuted]). *)
Definition narrow (f : format) : Prop := 0 <= channelCount f /\ 0 < bytesPerSample true f * channelCount f < 32768.

Lemma narrow_small f : narrow f -> 0 <= channelCount f < 2 ^ 64.
Proof. intros [H1 H2]. split; [exact H1|]. change (2 ^ 64) with 18446744073709551616. set (b := bytesPerSample true f) in *. clearbody b. assert (1 <= b) by nia. assert (channelCount f <= b * channelCount f) by nia. lia. Qed.
Lemma input_read (B : Build) wrapv host cin inF rate bytes first total frames got :
  holds cin bytes first total frames -> total < 2 ^ 48 -> usualRate rate -> convertible wrapv host (initial host inF) -> rmapM (view wrapv host (initial host inF)) frames = Ok got ->
  exists ls, concat ls = got /\ zlen got = total /\ portions ls /\
    vrun wrapv host cin true (vopen host cin inF rate bytes first total) (VFrameCount :: map (fun l => VRead (zlen l)) ls) = Ok (Number total :: map gave ls).
Proof.
  intros H HT HR Cv G. pose proof (PropertiesReader.holds_len _ _ _ _ _ H) as HL. pose proof (rmapM_zlen _ _ _ G) as LG. exists (cutUp (length got) got). destruct (cutUp_ok (length got) got) as [C1 C2]; [unfold zlen; lia|].
  split; [exact C1|]. split; [lia|]. split; [exact C2|].
  rewrite (C69_reads_follow_the_settings B wrapv host cin inF rate bytes first total frames _ H HT HR).
  - cbn [srun]. rewrite HL. rewrite srun_reads; [reflexivity|lia|]. rewrite zskipn_0 by lia. now rewrite C1.
  - cbn [legal]. split; [exact Cv|]. cbn [andb negb]. rewrite <- (map_map zlen VRead). apply legal_reads. exact Cv.
Qed.
Lemma output_ops wrapv host rate inF outF v ls : storable wrapv host (outSettings inF outF v) ->
  wlegal wrapv host rate (ST outF v None) true false (writeOps inF ls) /\ stored wrapv host (ST outF v None) (writeOps inF ls) = rmapM (into wrapv host (outSettings inF outF v)) (concat ls).
Proof.
  intros S. unfold writeOps. cbn [wlegal stored]. rewrite !apply_out. split; [|apply stored_writes]. apply wlegal_writes. exact S.
Qed.

(** A complete input: sfconvert succeeds, and the output is the file that holds all its frames, converted to the output's
    format: the header, updated with the number of frames, and their encoding.  [pad] completes the last block. *)
Theorem C73_converts_every_frame :
  forall (B : Build) E c okF okE, library E c okF okE ->
  forall wrapv host cin inF rate bytes first total frames junk upd cap outF v hdr ofirst e0 got l,
    holds cin bytes first total frames -> total < 2 ^ 48 -> usualRate rate -> narrow (g_user (initial host inF)) ->
    convertible wrapv host (initial host inF) -> storable wrapv host (outSettings inF outF v) ->
    rmapM (view wrapv host (initial host inF)) frames = Ok got -> rmapM (into wrapv host (outSettings inF outF v)) got = Ok l ->
    okF (map val junk) -> 0 <= ofirst -> okE e0 -> room c cap -> compressed v = false -> Forall okF (map (map val) l) -> wholeRate rate total ->
    exists pad d t,
      sfconvert wrapv host cin (liftW c) junk upd cap inF (vopen host cin inF rate bytes first total) (yopen (liftW c) cap outF v rate hdr ofirst e0)
        = Ok (Some (upd (mkFile (overwrite hdr ofirst d) (ofirst + zlen d)) t)) /\
      completes c l pad /\ audio c (map val junk) e0 (map (map val) (l ++ pad)) = Ok d /\
      w_first t = ofirst /\ w_totalf t = total /\ w_totalv t = total /\ w_dsize t = zlen d /\ w_after t = ofirst + zlen d.
Proof.
  intros B E c okF okE HL wrapv host cin inF rate bytes first total frames junk upd cap outF v hdr ofirst e0 got l H HT HR HN Cv St G1 G2 Hj Hf He Hc Cp Fl R.
  destruct (input_read B wrapv host cin inF rate bytes first total frames got H HT HR Cv G1) as (ls & Cl & Lg & P & Rv). destruct (output_ops wrapv host rate inF outF v ls St) as [WL WS]. rewrite Cl in WS. assert (Ll : zlen l = total) by (rewrite (rmapM_zlen _ _ _ G2); exact Lg).
  destruct (C70_file_holds_what_was_written B E c okF okE HL wrapv host junk upd cap outF v rate hdr ofirst e0 (writeOps inF ls) l) as (pad & d & st & t & Y & P1 & P2 & P3 & P4 & P5 & P6 & P7 & P8); auto; [now rewrite WS|now rewrite Ll|].
  exists pad, d, t. split; [|rewrite <- Ll; auto 10]. rewrite <- P3.
  eapply sfconvert_runs; [apply HN|apply narrow_small; exact HN|exact P|rewrite Cl; exact Lg|exact Rv|reflexivity|exact Y].
Qed.
Print Assumptions C73_converts_every_frame.

(** When the frames fill the last block, the output is the file of a program that converts the frames itself and writes them
    all in one call. *)
Theorem C73_same_as_one_write :
  forall (B : Build) E c okF okE, library E c okF okE ->
  forall wrapv host cin inF rate bytes first total frames junk upd cap outF v hdr ofirst e0 got l,
    holds cin bytes first total frames -> total < 2 ^ 48 -> usualRate rate -> narrow (g_user (initial host inF)) ->
    convertible wrapv host (initial host inF) -> storable wrapv host (outSettings inF outF v) ->
    rmapM (view wrapv host (initial host inF)) frames = Ok got -> rmapM (into wrapv host (outSettings inF outF v)) got = Ok l ->
    okF (map val junk) -> 0 <= ofirst -> okE e0 -> room c cap -> compressed v = false -> Forall okF (map (map val) l) -> wholeRate rate total ->
    match c with WPerFrame _ _ _ => True | WBlocks fpp _ _ => total mod fpp = 0 end ->
    exists st,
      sfconvert wrapv host cin (liftW c) junk upd cap inF (vopen host cin inF rate bytes first total) (yopen (liftW c) cap outF v rate hdr ofirst e0) = Ok (Some (ws_file st)) /\
      wrun c (fun x => x) (map val junk) true upd (openWrite c hdr ofirst cap e0) [Write (map (map val) l); Sync] = Ok st.
Proof.
  intros B E c okF okE HL wrapv host cin inF rate bytes first total frames junk upd cap outF v hdr ofirst e0 got l H HT HR HN Cv St G1 G2 Hj Hf He Hc Cp Fl R Hm.
  destruct (input_read B wrapv host cin inF rate bytes first total frames got H HT HR Cv G1) as (ls & Cl & Lg & P & Rv). destruct (output_ops wrapv host rate inF outF v ls St) as [WL WS]. rewrite Cl in WS. assert (Ll : zlen l = total) by (rewrite (rmapM_zlen _ _ _ G2); exact Lg).
  destruct (C70_same_file_as_one_write B E c okF okE HL wrapv host junk upd cap outF v rate hdr ofirst e0 (writeOps inF ls) l) as (st & st' & Y & W & F1 & F2); auto; [now rewrite WS|now rewrite Ll|rewrite Ll; exact Hm|].
  exists st'. split; [|exact W]. rewrite <- F1.
  eapply sfconvert_runs; [apply HN|apply narrow_small; exact HN|exact P|rewrite Cl; exact Lg|exact Rv|reflexivity|exact Y].
Qed.
Print Assumptions C73_same_as_one_write.

(** Any input, damaged or not, and any output: if sfconvert says that it succeeded, afReadFrames delivered at least as many
    frames as afGetFrameCount announced, all of them were written, and the output is the file so written.  Otherwise there is no output file. *)
Theorem C73_success_means_complete :
  forall (B : Build) E (cout : wcodec frame E) wrapv host cin junk upd cap inF vst yst out,
    sfconvert wrapv host cin cout junk upd cap inF vst yst = Ok (Some out) ->
    exists total ns ls rs st,
      vrun wrapv host cin true vst (VFrameCount :: map VRead ns) = Ok (Number total :: map gave ls) /\ total <= zlen (concat ls) /\ Forall2 (fun n l => 0 < n <= bufferFrames /\ n <= zlen l) ns ls /\
      yrun wrapv host cout junk true upd cap yst (writeOps inF ls ++ [YSync]) = Ok (rs, st) /\ firstn (length ls) (skipn 2 rs) = map zlen ls /\ out = ws_file (y_ws st).
Proof.
  intros B E cout wrapv host cin junk upd cap inF vst yst out H. unfold sfconvert in H. apply rbind_Ok in H as ((a & y1) & Y1 & H). apply rbind_Ok in H as ((b & y2) & Y2 & H). apply rbind_Ok in H as ((ok & y3) & C & H).
  apply rbind_Ok in H as ((d & y4) & Y4 & H). destruct ok; [|discriminate]. unfold copyAudioData in C. apply rbind_Ok in C as (size & _ & C). apply rbind_Ok in C as ((r & v1) & V1 & C). destruct r as [|total]; [discriminate|].
  apply (copyLoop_inv wrapv host cin cout junk upd cap) in C as (ns & ls & V2 & Y3 & F2 & T & _). exists total, ns, ls, (a :: b :: map zlen ls ++ [d]), y4.
  split; [cbn [Virtual.vrun vstep]; rewrite V1; cbn [rbind]; rewrite V2; reflexivity|]. split; [lia|]. split; [exact F2|]. split.
  - unfold writeOps. cbn [app VirtualWrite.yrun ystep]. rewrite Y1. cbn [rbind]. rewrite Y2. cbn [rbind]. rewrite yrun_app, Y3. cbn [rbind VirtualWrite.yrun ystep]. rewrite Y4. reflexivity.
  - split; [|congruence]. cbn [skipn]. rewrite firstn_app, map_length, Nat.sub_diag, firstn_O, app_nil_r. rewrite <- (map_length zlen ls). apply firstn_all.
Qed.
Print Assumptions C73_success_means_complete.

(** ** The same sample format in both files *)

(** PCM frames as the file module hands them over: byte order, sample type, channels. *)
Definition pcmIn (o : order) (t : ty) (ch : Z) : codec frame := PerFrame true (Z.of_nat (packedSize t) * ch) (fun b => map (dec o t) (groups (packedSize t) (Z.to_nat ch) b)).

Lemma group_lens {A} k n : forall l : list A, Forall (fun g => (length g <= k)%nat) (groups k n l).
Proof. induction n as [|n IH]; intros l; [constructor|]. cbn [groups]. constructor; [rewrite firstn_length; lia|apply IH]. Qed.
Lemma groups_number {A} k n : forall l : list A, length (groups k n l) = n.
Proof. induction n as [|n IH]; intros l; [reflexivity|]. cbn [groups length]. now rewrite IH. Qed.
Lemma group_bytes k n : forall l, bytes_ok l = true -> Forall (fun g => bytes_ok g = true) (groups k n l).
Proof.
  induction n as [|n IH]; intros l H; [constructor|]. cbn [groups]. assert (H2 : bytes_ok (firstn k l) = true /\ bytes_ok (skipn k l) = true).
  { rewrite <- (firstn_skipn k l) in H. unfold bytes_ok in *. rewrite forallb_app in H. apply andb_prop in H. exact H. }
  constructor; [apply H2|apply IH, H2].
Qed.
Lemma pcm_frame o t ch b : bytes_ok b = true -> 0 <= ch -> zlen (map (dec o t) (groups (packedSize t) (Z.to_nat ch) b)) = ch /\ Forall (fun s => tyOf s = t /\ smallU s) (map (dec o t) (groups (packedSize t) (Z.to_nat ch) b)).
Proof.
  intros H C. split; [unfold zlen; rewrite map_length, groups_number; lia|]. rewrite Forall_map. pose proof (group_lens (packedSize t) (Z.to_nat ch) b) as L. pose proof (group_bytes (packedSize t) (Z.to_nat ch) b H) as G. rewrite Forall_forall in *.
  intros g Hg. specialize (L g Hg). specialize (G g Hg). split; [destruct t as [[]|[]| |]; reflexivity|]. destruct t as [c|c| |]; cbn [dec smallU]; try exact I.
  pose proof (load_range o g G) as R. unfold inUnsigned. split; [lia|]. eapply Z.lt_le_trans; [apply R|]. apply Z.pow_le_mono_r; [lia|]. unfold zlen. destruct c; cbn [packedSize tysize bits] in *; lia.
Qed.
Lemma chunk_bytes k n : forall l, bytes_ok l = true -> Forall (fun g => bytes_ok g = true) (chunksOf n k l).
Proof.
  induction n as [|n IH]; intros l H; [constructor|]. cbn [chunksOf]. assert (H2 : bytes_ok (zfirstn k l) = true /\ bytes_ok (zskipn k l) = true).
  { rewrite <- (zfirstn_skipn k l) in H. unfold bytes_ok in *. rewrite forallb_app in H. apply andb_prop in H. exact H. }
  constructor; [apply H2|apply IH, H2].
Qed.

(** The two formats: PCM at full scale with the same sample format, width and channels; byte orders may differ. *)
Record sameSamples (host : order) (inF outF : format) (t : ty) : Prop := {
  q_in : samePCM host inF (g_user (initial host inF)) t; q_out : samePCM host outF (g_user (initial host outF)) t;
  q_format : sampleFormat outF = sampleFormat inF; q_width : sampleWidth outF = sampleWidth inF; q_chan : channelCount outF = channelCount inF;
  q_float : match t with TF => sampleWidth inF = 32 | TD => sampleWidth inF = 64 | _ => True end }.
Lemma out_same host inF outF v t : sameSamples host inF outF t -> byteOrder v = host -> compressed v = false -> outSettings inF outF v = initial host outF.
Proof.
  intros [[F1 R1 P1 C1 N1 U1] [F2 R2 P2 C2 N2 U2] QF QW QC QL] O C. unfold outSettings, setAll, initial. cbn [fold_left apply g_user g_file g_matrix]. rewrite P2, QF, QW, QC.
  assert (S : setSampleFormat (withChannels v (channelCount inF)) (sampleFormat inF) (sampleWidth inF) = Some {| sampleFormat := sampleFormat inF; sampleWidth := sampleWidth inF; channelCount := channelCount inF; byteOrder := host; compressed := false; pcm := fullScale t |}).
  { unfold setSampleFormat, withChannels. cbn [channelCount byteOrder compressed]. rewrite O, C. unfold fmtTy, getFormatCode, isUnsigned, bytesPerSample in F1. rewrite R1 in F1. cbn [negb andb] in F1. rewrite andb_false_r in F1.
    destruct (sampleFormat inF); try (match type of F1 with Some ?x = _ => assert (t = x) as -> by congruence end; rewrite QL; reflexivity).
    all: destruct (Z.quot (sampleWidth inF + 7) 8) as [|[[[]|[]|]|[[]|[]|]|]|] eqn:Q; try discriminate; match type of F1 with Some ?x = _ => assert (t = x) as -> by congruence end.
    all: assert (W : 1 <= sampleWidth inF <= 32) by (destruct (Z.lt_ge_cases (sampleWidth inF + 7) 0); [pose proof (Z.quot_opp_l (- (sampleWidth inF + 7)) 8) as X; rewrite Z.opp_involutive in X; rewrite X in Q by lia; rewrite Z.quot_div_nonneg in Q by lia; lia|rewrite Z.quot_div_nonneg in Q by lia; lia]).
    all: replace ((sampleWidth inF <? 1) || (32 <? sampleWidth inF)) with false by lia; reflexivity. }
  rewrite S. reflexivity.
Qed.

Lemma keep_all (f : frame -> res frame) l : Forall (fun fr => f fr = Ok fr) l -> rmapM f l = Ok l.
Proof. induction 1 as [|x l H _ IH]; [reflexivity|]. cbn [rmapM]. rewrite H. cbn [rbind]. now rewrite IH. Qed.
Lemma samePCM_narrow host f t : samePCM host f (g_user (initial host f)) t -> 8 * channelCount f < 32768 -> narrow (g_user (initial host f)).
Proof.
  intros S L. destruct (samePCM_user _ _ _ _ S) as (FV & RV & OV & CV & PV). pose proof (p_chan _ _ _ _ S) as C. rewrite <- CV in C, L. set (u := g_user (initial host f)) in *. clearbody u. split; [lia|].
  destruct (fmt_bps _ _ FV) as [_ B2]. assert (1 <= bytesPerSample true u <= 8).
  { unfold fmtTy, getFormatCode in FV. unfold bytesPerSample in *. destruct (sampleFormat u); try lia; rewrite RV in *; cbn [negb andb] in *; rewrite andb_false_r, ?andb_true_r in *; destruct (Z.quot (sampleWidth u + 7) 8) as [|[[[]|[]|]|[[]|[]|]|]|]; try discriminate; cbn; lia. }
  nia.
Qed.

(** A PCM file converted to another PCM format with the same samples (the machine, the input and the output may each have
    their own byte order): the output is the file obtained by writing exactly the numbers that are in the input. *)
Theorem C73_same_format_is_lossless :
  forall (B : Build) wrapv host inF outF v t rate bytes first total junk upd cap hdr ofirst o n,
    let ch := channelCount inF in
    sameSamples host inF outF t -> byteOrder v = host -> compressed v = false -> 8 * ch < 32768 -> (1 <= n)%nat ->
    bytes_ok bytes = true -> 0 <= first -> 0 <= total < 2 ^ 48 -> first + Z.of_nat (packedSize t) * ch * total <= zlen bytes ->
    usualRate rate -> wholeRate rate total -> zlen junk = ch -> 0 <= ofirst ->
    let frames := map (fun b => map (dec (byteOrder inF) t) (groups (packedSize t) (Z.to_nat ch) b)) (chunksOf (Z.to_nat total) (Z.of_nat (packedSize t) * ch) (zskipn first bytes)) in
    exists st,
      sfconvert wrapv host (pcmIn (byteOrder inF) t ch) (liftW (pcmW o n ch)) junk upd cap inF
        (vopen host (pcmIn (byteOrder inF) t ch) inF rate bytes first total) (yopen (liftW (pcmW o n ch)) cap outF v rate hdr ofirst tt) = Ok (Some (ws_file st)) /\
      wrun (pcmW o n ch) (fun x => x) (map val junk) true upd (openWrite (pcmW o n ch) hdr ofirst cap tt) [Write (map (map val) frames); Sync] = Ok st.
Proof.
  intros B wrapv host inF outF v t rate bytes first total junk upd cap hdr ofirst o n ch S Ov Cv Lch Hn Hb Hf Ht Hl HR HW Hj Ho frames.
  pose proof (q_in _ _ _ _ S) as S1. pose proof (q_out _ _ _ _ S) as S2. destruct (chains wrapv host inF _ t S1) as [A1 _]. destruct (chains wrapv host outF _ t S2) as [_ A2]. pose proof (p_chan _ _ _ _ S1) as Hc. fold ch in Hc.
  assert (P : 0 < Z.of_nat (packedSize t)) by (destruct t as [[]|[]| |]; cbn; lia).
  assert (H : holds (pcmIn (byteOrder inF) t ch) bytes first total frames).
  { split; [exact Hf|]. split; [lia|]. cbn [pcmIn]. split; [nia|]. split; [exact Hl|reflexivity]. }
  assert (FR : Forall (fun fr => zlen fr = ch /\ Forall (fun s => tyOf s = t /\ smallU s) fr) frames).
  { unfold frames. rewrite Forall_map. assert (Hs : bytes_ok (zskipn first bytes) = true) by (rewrite <- (zfirstn_skipn first bytes) in Hb; unfold bytes_ok in *; rewrite forallb_app in Hb; apply andb_prop in Hb; apply Hb).
    eapply Forall_impl; [|apply chunk_bytes; exact Hs]. intros b Bb. cbv beta. apply pcm_frame; [exact Bb|lia]. }
  clearbody frames.
  assert (KV : rmapM (view wrapv host (initial host inF)) frames = Ok frames).
  { apply keep_all. eapply Forall_impl; [|exact FR]. intros fr [_ T]. unfold view. cbn [g_file g_matrix initial]. change (g_user _) with (g_user (initial host inF)). rewrite A1. apply readChain_keeps; [apply (p_no32 _ _ _ _ S1)|exact T]. }
  assert (ES : outSettings inF outF v = initial host outF) by (eapply out_same; eauto).
  assert (KW : rmapM (into wrapv host (outSettings inF outF v)) frames = Ok frames).
  { rewrite ES. apply keep_all. eapply Forall_impl; [|exact FR]. intros fr [_ T]. unfold into. cbn [g_file g_matrix initial]. change (g_user _) with (g_user (initial host outF)). rewrite A2. apply writeChain_keeps; [apply (p_no32 _ _ _ _ S2)|exact T]. }
  eapply (C73_same_as_one_write B unit (pcmW o n ch) (frameOf ch (fun _ => True)) (fun _ => True)); try eassumption; auto.
  - constructor; [exact Hn|lia].
  - lia.
  - apply (samePCM_narrow host inF t S1). exact Lch.
  - eexists. exact A1.
  - rewrite ES. eexists. exact A2.
  - split; [now rewrite zlen_map|]. apply Forall_forall. auto.
  - exact I.
  - rewrite Forall_map. eapply Forall_impl; [|exact FR]. intros fr [L _]. split; [now rewrite zlen_map|]. apply Forall_forall. auto.
  - exact I.
Qed.
Print Assumptions C73_same_format_is_lossless.

(** ** What does not hold *)
(** Frames of 32768 bytes and more (up to 16 MiB): the size of the buffer, an int, overflows. *)
Theorem C73_wide_frames_refuted :
  forall (B : Build) E (cout : wcodec frame E) wrapv host cin junk upd cap inF rate bytes first total yst a b y1 y2,
    ycall wrapv host cap yst (SetChannels (channelCount inF)) = Ok (a, y1) -> ycall wrapv host cap y1 (SetSampleFormat (sampleFormat inF) (sampleWidth inF)) = Ok (b, y2) ->
    let v := g_user (initial host inF) in 32768 <= bytesPerSample true v * channelCount v < 2 ^ 24 ->
    sfconvert wrapv host cin cout junk upd cap inF (vopen host cin inF rate bytes first total) yst = UB.
Proof.
  intros B E cout wrapv host cin junk upd cap inF rate bytes first total yst a b y1 y2 Y1 Y2 v L. unfold sfconvert. rewrite Y1. cbn [rbind]. rewrite Y2. cbn [rbind].
  assert (X : copyBuffer v = UB).
  { unfold copyBuffer. rewrite virtualFrameSize_ok by lia. cbn [rbind]. unfold ck32, bufferFrames. set (n := bytesPerSample true v * channelCount v) in *. clearbody n. destruct (inS 32 (65536 * n)) eqn:I0; [|reflexivity]. apply inS_spec in I0. change (2 ^ (32 - 1)) with 2147483648 in I0. lia. }
  unfold copyAudioData. change (v_user (vopen host cin inF rate bytes first total)) with v. rewrite X. reflexivity.
Qed.
Print Assumptions C73_wide_frames_refuted.

(** ** Truncated input *)
Section Short.
Context {B : Build} {V : Type}.
Variables (isPCM : bool) (bpf : Z) (decode : list Z -> frame) (conv : frame -> V) (hasConv : bool).
Notation c := (PerFrame isPCM bpf decode).
Lemma readLoop_prefix fuel : forall (st : rstate frame) eof acc n out st', readLoop c conv hasConv true fuel st eof acc n = Ok (out, st') -> exists rest, out = acc ++ rest.
Proof.
  induction fuel as [|fuel IH]; intros st eof acc n out st' H; cbn [readLoop] in H; destruct (negb _); try discriminate.
  - exists []. rewrite app_nil_r. congruence.
  - exists []. rewrite app_nil_r. congruence.
  - cbv zeta in H. apply rbind_Ok in H as ((chunk & st1) & _ & H). destruct (t_happy _); [|eapply IH; exact H]. apply IH in H as (rest & ->). exists (chunk ++ rest). now rewrite app_assoc.
Qed.
(** Where a reader that has delivered everything it was asked for stands. *)
Record stands (bytes : list Z) (st : rstate frame) (P k : Z) : Prop := {
  d_bytes : fbytes (rs_file st) = bytes; d_ignore : t_ignore (rs_track st) = 0; d_total : t_totalf (rs_track st) <> -1;
  d_pos : t_nextpos (rs_track st) = P + bpf * k; d_in : P + bpf * k <= zlen bytes }.
Lemma loop_stands bytes P fuel : 0 <= P -> forall (st : rstate frame) eof acc n (out : list (option V)) st',
  stands bytes st P (zlen acc) -> fpos (rs_file st) = t_nextpos (rs_track st) -> readLoop c conv hasConv true fuel st eof acc n = Ok (out, st') ->
  (forall x, In x out -> x <> None) -> n <= zlen out -> stands bytes st' P (zlen out).
Proof.
  intros HP. induction fuel as [|fuel IH]; intros st eof acc n out st' S Fp H HS L; cbn [readLoop] in H.
  - destruct (negb _); [|discriminate]. assert (out = acc /\ st' = st) as [-> ->] by (split; congruence). exact S.
  - destruct (t_happy (rs_track st) && negb eof && (zlen acc <? n)) eqn:Go; cbn [negb] in H; [|assert (out = acc /\ st' = st) as [-> ->] by (split; congruence); exact S].
    cbv zeta in H. set (want0 := if zlen acc <=? n - ATOMIC then ATOMIC else n - zlen acc) in *. clearbody want0. apply rbind_Ok in H as ((chunk & st1) & U & H).
    unfold userPull in U. cbn [perFramePull] in U. apply rbind_Ok in U as ((raw & st2) & U & U2). apply rbind_Ok in U as ((raw0 & (f1 & t1)) & U & U1). assert (raw0 = raw /\ st2 = mkRS f1 t1 (rs_reb st)) as [-> ->] by (split; congruence). clear U1.
    unfold perFramePull in U. cbv zeta in U. set (want := if isPCM && _ && _ then _ else want0) in U. clearbody want. destruct ((want <? 0) || (bpf <=? 0)) eqn:W; [discriminate|]. apply orb_false_iff in W as [W1 W2]. apply Z.ltb_ge in W1. apply Z.leb_gt in W2.
    destruct (fread (rs_file st) (bpf * want)) as [d f2] eqn:R. apply rbind_Ok in U as (u & _ & U).
    assert (raw = map (fun b => Some (decode b)) (chunksOf (Z.to_nat (Z.quot (zlen d) bpf)) bpf d)) as Eraw by congruence.
    assert (f1 = f2) as -> by congruence. match type of U with Ok (_, (_, ?x)) = _ => assert (t1 = x) as -> by congruence end. clear U.
    match type of U2 with Ok (_, ?x) = _ => assert (st1 = x) as -> by congruence end.
    assert (Ec : chunk = if hasConv then map (option_map conv) raw ++ zrepeat None (want0 - zlen (map (option_map conv) raw)) else map (option_map conv) raw) by (destruct hasConv; congruence). clear U2.
    destruct S as [S1 S2 S3 S4 S5]. apply andb_prop in Go as [Go1 Go2]. apply andb_prop in Go1 as [Go1 _]. apply Z.ltb_lt in Go2. rewrite Go1 in H. cbn [rs_track t_happy andb] in H. replace (t_totalf (rs_track st) =? -1) with false in H by lia. rewrite orb_false_r in H.
    unfold fread in R. assert (d = zfirstn (bpf * want) (zskipn (fpos (rs_file st)) (fbytes (rs_file st)))) as Ed by congruence. assert (f2 = mkFile (fbytes (rs_file st)) (fpos (rs_file st) + zlen d)) as Ef by congruence. clear R.
    rewrite S1, Fp, S4 in Ed, Ef. pose proof (zlen_nonneg acc) as Za. assert (Zb : 0 <= bpf * zlen acc) by nia. assert (Zw : 0 <= bpf * want) by nia.
    assert (Ld : zlen d = Z.min (bpf * want) (zlen bytes - (P + bpf * zlen acc))) by (rewrite Ed, zlen_firstn, zlen_skipn by lia; lia). pose proof (zlen_nonneg d) as Zd.
    rewrite Z.quot_div_nonneg in * by lia. destruct (Z.eqb_spec (zlen d / bpf) want) as [Eg|Eg].
    2: { exfalso. destruct fuel as [|fuel]; cbn [readLoop rs_track t_happy andb negb] in H; assert (out = acc) by congruence; subst out; lia. }
    assert (Dd : zlen d = bpf * want). { pose proof (Z.mul_div_le (zlen d) bpf ltac:(lia)). rewrite Eg in *. lia. }
    destruct (readLoop_prefix _ _ _ _ _ _ _ H) as (rest & Eo).
    assert (Lr : zlen raw = want) by (rewrite Eraw, zlen_map, Eg; unfold zlen; rewrite chunksOf_length; lia).
    assert (Lc : zlen chunk = want).
    { rewrite Ec. destruct hasConv; [|rewrite zlen_map; exact Lr]. rewrite zlen_app, zlen_map, Lr. destruct (Z.le_gt_cases (want0 - want) 0) as [L0|L0].
      - unfold zrepeat. replace (Z.to_nat (want0 - want)) with O by lia. cbn [repeat]. change (zlen (@nil (option V))) with 0. lia.
      - exfalso. apply (HS None); [|reflexivity]. rewrite Eo, Ec, zlen_map, Lr. apply in_or_app. left. apply in_or_app. right. apply in_or_app. right. unfold zrepeat. destruct (Z.to_nat (want0 - want)) eqn:N; [lia|]. now left. }
    eapply IH; [| |exact H|exact HS|exact L].
    + rewrite zlen_app, Lc. constructor; cbn [rs_file rs_track t_ignore t_totalf t_nextpos]; rewrite ?Z.mul_add_distr_l; auto; [rewrite Ef; reflexivity|lia|lia].
    + cbn [rs_file rs_track t_nextpos]. rewrite Ef. cbn [fpos]. lia.
Qed.
Lemma read_stands bytes P k (st : rstate frame) n (out : list (option V)) st' : 0 <= P -> 0 < bpf -> 0 <= k -> stands bytes st P k -> afReadFrames c conv hasConv true st n = Ok (out, st') -> (forall x, In x out -> x <> None) -> n <= zlen out -> 
  stands bytes st' P (k + zlen out).
Proof.
  intros HP Hb Hk [S1 S2 S3 S4 S5] H HS L. unfold afReadFrames in H. cbv zeta in H. cbn [rs_track setHappy t_ignore] in H. rewrite S2 in H. cbn [negb Z.eqb rbind] in H.
  set (m := if t_totalv (rs_track st) =? -1 then n else _) in H. assert (M : m <= n) by (unfold m; destruct (_ =? -1); [lia|]; destruct (Z.ltb_spec (t_totalv (rs_track st) - t_nextv (rs_track st)) n); lia). clearbody m.
  apply rbind_Ok in H as ((o & st1) & R & H). assert (o = out) as -> by congruence.
  assert (S' : stands bytes st1 (P + bpf * k) (zlen out)).
  { eapply (loop_stands bytes (P + bpf * k)); [nia| | |exact R|exact HS|lia]; [|reflexivity]. change (zlen (@nil (option V))) with 0. constructor; cbn; auto; [rewrite S4; lia|lia]. }
  assert (st' = setTrack st1 (setNextv (rs_track st1) (t_nextv (rs_track st1) + zlen out))) as -> by congruence. destruct S' as [A1 A2 A3 A4 A5]. constructor; cbn; auto; lia.
Qed.
End Short.

(** PCM and G.711: if the file ends before the frames its header announces, sfconvert does not say that it succeeded. *)
Theorem C73_truncated_input_fails :
  forall (B : Build) E (cout : wcodec frame E) wrapv host isPCM bpf decode junk upd cap inF rate bytes first total yst out,
    let cin := PerFrame isPCM bpf decode in
    0 < bpf -> 0 <= first <= zlen bytes -> 0 < total < 2 ^ 48 -> usualRate rate -> convertible wrapv host (initial host inF) -> zlen bytes < first + bpf * total ->
    sfconvert wrapv host cin cout junk upd cap inF (vopen host cin inF rate bytes first total) yst <> Ok (Some out).
Proof.
  intros B E cout wrapv host isPCM bpf decode junk upd cap inF rate bytes first total yst out cin Hb Hf Ht HR (ms & A) Hs H.
  destruct (C73_success_means_complete _ _ _ _ _ _ _ _ _ _ _ _ _ H) as (tot & ns & ls & _ & _ & Rv & T & F2 & _). clear H.
  cbn [vrun vstep] in Rv. apply rbind_Ok in Rv as ((r & v1) & V1 & Rv). apply rbind_Ok in Rv as (rl & R2 & Rv). assert (r = Number tot /\ rl = map gave ls) as [-> ->] by (split; congruence). clear Rv.
  assert (X : v_dirty v1 = false /\ tot = total /\ stands bpf bytes (v_rs v1) first 0).
  { unfold vFrameCount, refresh in V1. cbn [vopen v_dirty] in V1. unfold setup in V1. cbn [vopen v_rs v_frate v_vrate v_user v_file v_matrix compressed rs_track t_nextv t_totalf] in V1.
    rewrite (scaleFrame_same 0 rate) in V1 by (auto; change (2 ^ 48) with 281474976710656; lia). cbn [rbind] in V1. cbn [initial g_file g_user g_matrix] in A. rewrite A in V1. cbn [rbind] in V1. replace (total =? -1) with false in V1 by lia. rewrite (scaleTotal_same total rate) in V1 by (auto; lia). cbn [rbind] in V1.
    rewrite ?(scaleFrame_same 0 rate) in V1 by (auto; change (2 ^ 48) with 281474976710656; lia). cbn [rbind] in V1. match type of V1 with Ok (_, ?x) = _ => assert (v1 = x) as -> by congruence end. split; [reflexivity|]. split; [cbn in V1; congruence|].
    constructor; cbn; auto; lia. }
  destruct X as (Dv & -> & S). clear V1.
  assert (K : forall k, 0 <= k -> stands bpf bytes (v_rs v1) first k -> first + bpf * (k + zlen (concat ls)) <= zlen bytes).
  { clear S T. revert ls v1 Dv R2 F2. induction ns as [|n ns IH]; intros ls v1 Dv R2 F2 k K S; inversion F2; subst.
    - cbn [concat]. change (zlen (@nil frame)) with 0. rewrite Z.add_0_r. apply (d_in _ _ _ _ _ S).
    - cbn [map vrun vstep] in R2. apply rbind_Ok in R2 as ((r & v2) & V2 & R2). apply rbind_Ok in R2 as (rl & R3 & R2). assert (r = gave y /\ rl = map gave l') as [-> ->] by (split; congruence). clear R2.
      unfold vRead, refresh in V2. rewrite Dv in V2. cbn [rbind] in V2. apply rbind_Ok in V2 as ((o & rs) & V2 & V3). assert (Eo : o = map Some (map Ok y)) by (unfold gave in V3; congruence). assert (v2 = onRS v1 rs) as -> by congruence. clear V3.
      assert (Lo : zlen o = zlen y) by (rewrite Eo, !zlen_map; reflexivity).
      apply (read_stands isPCM bpf decode _ _ bytes first k) in V2; auto; try lia.
      + cbn [concat]. rewrite zlen_app, Z.add_assoc, <- Lo. pose proof (zlen_nonneg o). apply (IH l' (onRS v1 rs)); auto; try lia.
      + intros x Hx. rewrite Eo, in_map_iff in Hx. destruct Hx as (z & <- & _). discriminate. }
  specialize (K 0 ltac:(lia) S). nia.
Qed.
Print Assumptions C73_truncated_input_fails.

(** ** Examples *)
(** Four stereo frames, little-endian, to big-endian samples: the conditions of the theorems hold and this is the run. *)
Definition exBig : format := {| sampleFormat := TWOSCOMP; sampleWidth := 16; channelCount := 2; byteOrder := BigEndian; compressed := false; pcm := signedMapping kInt16 |}.
Example C73_example_same :
  sameSamples LittleEndian exStereo exBig (TI kInt16) /\ narrow (g_user (initial LittleEndian exStereo)) /\ usualRate (hz 44100) /\ wholeRate (hz 44100) 4 /\
  convertible true LittleEndian (initial LittleEndian exStereo) /\ storable true LittleEndian (outSettings exStereo exBig exStereo) /\ library unit (pcmW BigEndian 2 2) (frameOf 2 (fun _ => True)) (fun _ => True) /\
  forall B : Build, exists st, 
    sfconvert true LittleEndian (pcmIn LittleEndian (TI kInt16) 2) (liftW (pcmW BigEndian 2 2)) [SI kInt16 0; SI kInt16 0] (fun f _ => f) 1024 exStereo
      (vopen LittleEndian (pcmIn LittleEndian (TI kInt16) 2) exStereo (hz 44100) exBytes 0 4) (yopen (liftW (pcmW BigEndian 2 2)) 1024 exBig exStereo (hz 44100) [77; 78] 2 tt) = Ok (Some st) /\
    fbytes st = [77; 78; 0; 1; 0; 3; 0; 5; 0; 7; 0; 9; 0; 11; 0; 13; 0; 15].
Proof.
  split; [constructor; try reflexivity; constructor; try reflexivity; try (cbn; lia); discriminate|]. split; [vm_compute; split; [congruence|split; congruence]|]. split; [vm_compute; repeat split; congruence|]. split; [exists 44100; repeat split; vm_compute; congruence|].
  split; [eexists; vm_compute; reflexivity|]. split; [eexists; vm_compute; reflexivity|]. split; [constructor; lia|]. intros B. destruct B; eexists; split; try (vm_compute; reflexivity).
Qed.
(** The same with the last frame missing from the input: no output file. *)
Example C73_example_truncated :
  zlen (zfirstn 14 exBytes) < 0 + 4 * 4 /\
  forall B : Build, sfconvert true LittleEndian (pcmIn LittleEndian (TI kInt16) 2) (liftW (pcmW BigEndian 2 2)) [SI kInt16 0; SI kInt16 0] (fun f _ => f) 1024 exStereo
      (vopen LittleEndian (pcmIn LittleEndian (TI kInt16) 2) exStereo (hz 44100) (zfirstn 14 exBytes) 0 4) (yopen (liftW (pcmW BigEndian 2 2)) 1024 exBig exStereo (hz 44100) [77; 78] 2 tt) = Ok None.
Proof. split; [vm_compute; reflexivity|]. intros B. destruct B; vm_compute; reflexivity. Qed.
(** Stereo 16 bit to mono IMA blocks: the frames are mixed down, the block is completed. *)
Example C73_example_blocks :
  storable true LittleEndian (outSettings exStereo exMono exMonoV) /\ room (imaQTW 1) 1024 /\
  (exists l, rmapM (into true LittleEndian (outSettings exStereo exMono exMonoV)) exFrames = Ok l /\ map (map val) l = [[2]; [6]; [10]; [14]]) /\
  forall B : Build, exists st, 
    sfconvert true LittleEndian exCodec (liftW (imaQTW 1)) [SI kInt16 0] (fun f _ => f) 1024 exStereo
      (vopen LittleEndian exCodec exStereo (hz 8000) exBytes 0 4) (yopen (liftW (imaQTW 1)) 1024 exMono exMonoV (hz 8000) [] 0 [IMA.initState]) = Ok (Some st) /\ zlen (fbytes st) = 34.
Proof.
  split; [eexists; vm_compute; reflexivity|]. split; [vm_compute; congruence|]. split; [eexists; split; [vm_compute; reflexivity|vm_compute; reflexivity]|]. intros B. destruct B; eexists; (split; [vm_compute; reflexivity|vm_compute; reflexivity]).
Qed.
(** 8192 channels of 32 bits: the conditions of the refutation hold. *)
Example C73_example_wide :
  let f := {| sampleFormat := TWOSCOMP; sampleWidth := 32; channelCount := 8192; byteOrder := LittleEndian; compressed := false; pcm := signedMapping kInt32 |} in
  32768 <= bytesPerSample true (g_user (initial LittleEndian f)) * channelCount (g_user (initial LittleEndian f)) < 2 ^ 24 /\
  exists a b y1 y2, ycall true LittleEndian 1024 (yopen (liftW (pcmW BigEndian 2 2)) 1024 exBig exStereo (hz 44100) [] 0 tt) (SetChannels (channelCount f)) = Ok (a, y1) /\ ycall true LittleEndian 1024 y1 (SetSampleFormat (sampleFormat f) (sampleWidth f)) = Ok (b, y2).
Proof. cbv zeta. split; [vm_compute; split; congruence|]. do 4 eexists. split; reflexivity. Qed.
