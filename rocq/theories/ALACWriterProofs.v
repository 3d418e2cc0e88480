(** Proofs about the writing half of [ALACModule]. *)
From Verif Require Import Prelude PreludeFacts ByteOrder FileIO Rebuffer RebufferSpec RebufferProofs Reader Writer WriterProofs Codecs HeaderIO Chunks Float FloatBits PacketTable CAF.
From Verif Require Import ALACBits ALACGolomb ALACGolombProofs ALACPredict ALACCodec ALACCodecProofs ALACElements ALACPacket ALACSize ALACTotal ALACSearch ALACStream ALACModule.

(** A frame that fits the format. *)
Definition alacFrame (depth channels : Z) (x : list Z) : Prop := zlen x = channels /\ Forall (inRange (container depth)) x.

Lemma frames_concat depth channels l : Forall (alacFrame depth channels) l -> zlen (concat l) = zlen l * channels /\ Forall (inRange (container depth)) (concat l).
Proof.
  induction 1 as [|x l [Lx Fx] _ [IH1 IH2]]; cbn [concat]; [split; [reflexivity|constructor]|].
  rewrite zlen_app, zlen_cons. split; [lia|]. apply Forall_app. auto.
Qed.
Lemma rassert_true (B : Build) : rassert true = Ok tt. Proof. destruct B; reflexivity. Qed.

Section Proofs.
Context {B : Build} {V : Type}.
Variables fr depth channels : Z.
Variable conv : V -> list Z.
Variable junk : list Z.
Variable cookie : list Z.
Hypothesis Hd : depthOk depth.
Hypothesis Hf : 1024 <= fr < 2 ^ 24.
Hypothesis Hch : 1 <= channels <= 8.
Variable hdr : list Z.
Variable first : Z.
Hypothesis Hfirst : 0 <= first.

(** The track after [d] bytes of packets and [nv] frames counted. *)
Definition atrack (len nv : Z) : wtrack := mkWT first 0 0 (first + len) 0 len nv nv (-1) (-1).

(** The sink has taken the frames of [pk], packet by packet, and written [ps]. *)
Definition sinkAt (nv : Z) (s : asink) (pk : list (list (list Z))) (ps : list (list Z)) : Prop :=
  let '(f, t, pt, enc, b, happy) := s in
  Forall2 (decodesTo fr depth channels) (map (@concat Z) pk) ps /\ Forall (Forall (alacFrame depth channels)) pk /\
  f = mkFile (overwrite hdr first (concat ps)) (first + zlen (concat ps)) /\ t = atrack (zlen (concat ps)) nv /\
  pt = mkPT (zlen (concat pk)) 0 0 (map zlen ps) /\ (forall i, chanOk (enc i)) /\ bytes_ok b = true /\ workable fr depth channels (zlen b) /\ happy = true.

Definition agood (o : option (list Z)) : Prop := exists x, o = Some x /\ alacFrame depth channels x.
Lemma agood_map l : Forall agood (map Some l) <-> Forall (alacFrame depth channels) l.
Proof.
  rewrite Forall_map. split; apply Forall_impl; intros x; unfold agood; intros H.
  - destruct H as (y & [= ->] & H). exact H.
  - eauto.
Qed.
Lemma agood_some l : Forall agood l -> exists l', l = map Some l' /\ Forall (alacFrame depth channels) l'.
Proof.
  induction 1 as [|o l (x & -> & Hx) _ (l' & -> & F)]; [exists []; split; [reflexivity|constructor]|].
  exists (x :: l'). split; [reflexivity|constructor; assumption].
Qed.

(** One packet. *)
Lemma alacPush_step nv f t pt enc b happy pk ps outb n p : sinkAt nv (f, t, pt, enc, b, happy) pk ps -> 0 <= n <= fr -> n <= zlen outb ->
  zfirstn n outb = map Some p -> Forall (alacFrame depth channels) p ->
  exists q s', (forall t', w_nextpos t' = w_nextpos t ->
      let '(f1, _, pt1, enc1, b1, h1) := s' in
      alacPush (W := Wrapping) fr depth channels junk (f, t', pt, enc, b, happy) outb n = Ok (f1, snd (fmWrite f t' q), pt1, enc1, b1, h1)) /\
    sinkAt nv s' (pk ++ [p]) (ps ++ [q]) /\ (let '(_, t1, _, _, _, _) := s' in t1 = snd (fmWrite f t q)).
Proof.
  intros (F2 & FP & -> & -> & -> & He & Hb & Hw & ->) Hn Hl Ep Fp. unfold alacPush. rewrite slice_ok by lia. cbn [rbind]. rewrite (zskipn_0 0) by lia. rewrite Ep.
  assert (EU : map (unjunk junk) (map Some p) = p) by (rewrite map_map; cbn [unjunk]; apply map_id). rewrite EU.
  assert (Lp : zlen p = n). { assert (X : zlen (map Some p) = n) by (rewrite <- Ep, zlen_firstn by lia; lia). rewrite zlen_map in X. exact X. }
  destruct (frames_concat depth channels p Fp) as [Lc Fc]. rewrite Lp in Lc.
  destruct (encodePacket_ok fr depth channels enc b (concat p) n Hd Hf Hch He Hb Fc Hn Lc Hw) as (b' & size & enc' & -> & HS & B1 & L1 & S1 & S2 & D). cbn [rbind fst snd].
  replace (size <=? bufferSize fr depth channels) with true by lia. rewrite rassert_true. cbn [rbind]. 
  assert (CB : bufferSize fr depth channels <= zlen b) by (destruct Hw as [Hw1 _]; pose proof (bufferSize_chunk fr depth channels); lia).
  assert (LF : zlen (zfirstn size b') = size) by (rewrite zlen_firstn by lia; lia).
  set (q := zfirstn size b') in *. exists q.
  exists (fwrite (mkFile (overwrite hdr first (concat ps)) (first + zlen (concat ps))) q, snd (fmWrite (mkFile (overwrite hdr first (concat ps)) (first + zlen (concat ps))) (atrack (zlen (concat ps)) nv) q),
          mkPT (zlen (concat pk) + n) 0 0 (map zlen ps ++ [size]), enc', b', true).
  split; [intros t' _; reflexivity|]. split; [|reflexivity].
  unfold sinkAt. split.
  { rewrite map_app. apply Forall2_app; [exact F2|]. constructor; [|constructor]. unfold decodesTo. rewrite LF.
    split; [apply bytes_ok_spec; apply bytes_ok_spec in B1; apply Forall_firstn; exact B1|]. split; [exact S1|]. split; [exact S2|]. exists n. split; [exact Hn|]. split; [exact Lc|exact D]. }
  split; [apply Forall_app; split; [exact FP|constructor; [exact Fp|constructor]]|].
  assert (EC : concat (ps ++ [q]) = concat ps ++ q) by (rewrite concat_app; cbn [concat]; now rewrite app_nil_r).
  rewrite EC. split.
  { unfold fwrite. cbn [fbytes fpos]. rewrite ow_app by lia. rewrite zlen_app. enough (E : first + zlen (concat ps) + zlen q = first + (zlen (concat ps) + zlen q)) by (rewrite E; reflexivity). lia. }
  split.
  { unfold fmWrite, atrack. cbn [snd w_first w_nextf w_totalf w_nextpos w_after w_dsize w_nextv w_totalv w_savedpos w_savednext]. rewrite zlen_app.
    enough (E : first + zlen (concat ps) + zlen q = first + (zlen (concat ps) + zlen q)) by (rewrite E; reflexivity). lia. }
  split.
  { rewrite !concat_app, map_app. cbn [concat map]. rewrite app_nil_r, zlen_app, Lp, LF. reflexivity. }
  split; [exact HS|]. split; [exact B1|]. split; [rewrite L1; exact Hw|reflexivity].
Qed.

(** The sink of the rebuffering module while writing: only full packets. *)
Definition alacP (nv : Z) (s : asink) (recv : list (option (list Z))) : Prop :=
  exists pk ps, sinkAt nv s pk ps /\ Forall (fun p => zlen p = fr) pk /\ recv = map Some (concat pk).
Lemma alacPush_takes nv : takes (alacPush (W := Wrapping) fr depth channels junk) (alacP nv) agood fr false.
Proof.
  intros [[[[[f t] pt] enc] b] happy] recv outb n (pk & ps & HS & HF & ->) Hn _ En Hl HG. specialize (En eq_refl). subst n.
  destruct (agood_some _ HG) as (p & Ep & Fp).
  destruct (alacPush_step nv f t pt enc b happy pk ps outb fr p HS ltac:(lia) Hl Ep Fp) as (q & [[[[[f1 t1] pt1] enc1] b1] h1] & E & HS' & Et).
  specialize (E t eq_refl). cbn beta iota in E. rewrite E. eexists. split; [reflexivity|]. exists (pk ++ [p]), (ps ++ [q]). rewrite <- Et. split; [exact HS'|].
  split; [apply Forall_app; split; [exact HF|]; constructor; [|constructor]|].
  - assert (X : zlen (map Some p) = fr) by (rewrite <- Ep, zlen_firstn by lia; lia). rewrite zlen_map in X. exact X.
  - rewrite concat_app. cbn [concat]. rewrite app_nil_r, map_app, Ep. reflexivity.
Qed.

(** After the frames [l] were given. *)
Definition ainv (st : astate) (l : list (list Z)) (nv : Z) : Prop :=
  exists pk ps pl, l = concat pk ++ pl /\ Forall (alacFrame depth channels) pl /\ sinkAt nv (as_sink st) pk ps /\ Forall (fun p => zlen p = fr) pk /\
    rebW fr (as_reb st) /\ pending (as_reb st) = map Some pl /\ fr <= zlen (as_out st).

Lemma some_app {A} : forall (a b : list (option A)) w, a ++ b = map Some w -> exists a' b', a = map Some a' /\ b = map Some b' /\ a' ++ b' = w.
Proof.
  induction a as [|x a IH]; intros b w H.
  - exists [], w. auto.
  - destruct w as [|y w]; [discriminate|]. cbn in H. injection H as -> H. destruct (IH b w H) as (a' & b' & -> & -> & <-). exists (y :: a'), b'. auto.
Qed.
Lemma some_inj {A} (a b : list A) : map Some a = map Some b -> a = b.
Proof. revert b. induction a as [|x a IH]; intros [|y b] H; cbn in H; try discriminate; [reflexivity|]. injection H as -> H. f_equal. auto. Qed.

Lemma aUserPush_ok st l nv chunk : ainv st l nv -> Forall (alacFrame depth channels) (map conv chunk) ->
  exists st', aUserPush (W := Wrapping) fr depth channels conv junk st chunk = Ok st' /\ ainv st' (l ++ map conv chunk) nv.
Proof.
  intros (pk & ps & pl & -> & Fp & HS & HF & HW & Pd & Ho) Hc. unfold aUserPush.
  destruct (rebPush_ok (alacPush (W := Wrapping) fr depth channels junk) (alacP nv) agood fr false ltac:(lia) (alacPush_takes nv) (length chunk) (as_reb st) (as_out st) (as_sink st)
             (map Some (map conv chunk)) (map Some (concat pk))) as (r' & outb' & s' & recv' & E1 & W' & (pk' & ps' & HS' & HF' & ->) & Lo & Eq & _ & _); auto.
  { exists pk, ps. auto. }
  { rewrite Pd. apply agood_map. exact Fp. } { apply agood_map. exact Hc. }
  { rewrite !zlen_map. unfold zlen. lia. }
  rewrite E1. cbn [rbind]. eexists. split; [reflexivity|]. 
  rewrite Pd, <- !map_app in Eq. destruct (some_app _ _ _ Eq) as (a' & pl' & Ea & Pd' & Eq'). apply some_inj in Ea. subst a'.
  exists pk', ps', pl'. cbn [as_sink as_reb as_out].
  split; [rewrite <- app_assoc; symmetry; exact Eq'|]. split; [|split; [exact HS'|]; split; [exact HF'|]; split; [exact W'|]; split; [exact Pd'|lia]].
  assert (FF : Forall (alacFrame depth channels) (concat pk' ++ pl')).
  { rewrite Eq'. apply Forall_app. split; [|apply Forall_app; auto]. destruct (as_sink st) as [[[[[? ?] ?] ?] ?] ?]. destruct HS as (_ & FP & _). clear - FP. induction FP; cbn [concat]; [constructor|apply Forall_app; auto]. }
  apply Forall_app in FF. tauto.
Qed.

Lemma aWriteLoop_ok fuel : forall st l nv samples v, Forall (alacFrame depth channels) (map conv samples) ->
  ainv st (l ++ map conv (zfirstn v samples)) nv -> 0 <= v <= zlen samples -> zlen samples - v < Z.of_nat fuel ->
  exists st', aWriteLoop (W := Wrapping) fr depth channels conv junk fuel st samples v (zlen samples) = Ok (st', zlen samples) /\ ainv st' (l ++ map conv samples) nv.
Proof.
  induction fuel as [|fuel IH]; intros st l nv samples v Hs I Hv Hfu; [lia|].
  cbn [aWriteLoop]. destruct (Z.ltb_spec v (zlen samples)) as [Hlt|Hge]; cbn [negb].
  - set (count := if v <=? zlen samples - ATOMIC then ATOMIC else zlen samples - v).
    assert (Hc : 0 < count <= zlen samples - v) by (unfold count, ATOMIC; destruct (Z.leb_spec v (zlen samples - 1024)); lia).
    clearbody count. rewrite slice_ok by lia. cbn [rbind].
    destruct (aUserPush_ok st (l ++ map conv (zfirstn v samples)) nv (zfirstn count (zskipn v samples)) I) as (st1 & E1 & I1).
    { rewrite <- (zfirstn_skipn v samples), map_app in Hs. apply Forall_app in Hs. destruct Hs as [_ Hs].
      rewrite <- (zfirstn_skipn count (zskipn v samples)), map_app in Hs. apply Forall_app in Hs. tauto. }
    rewrite E1. cbn [rbind].
    assert (Hh : snd (as_sink st1) = true). { destruct I1 as (pk & ps & pl & _ & _ & HS & _). destruct (as_sink st1) as [[[[[? ?] ?] ?] ?] h]. cbn [snd]. apply HS. }
    rewrite Hh. cbn [negb]. apply (IH st1 l nv samples (v + count)); auto; try lia.
    rewrite <- app_assoc, <- map_app, <- zfirstn_split in I1 by lia. exact I1.
  - replace v with (zlen samples) in * by lia. exists st. split; [reflexivity|]. rewrite zfirstn_all in I by lia. exact I.
Qed.

Lemma aWriteFrames_ok st l nv samples : ainv st l nv -> Forall (alacFrame depth channels) (map conv samples) ->
  exists st', aWriteFrames (W := Wrapping) fr depth channels conv junk st samples = Ok (zlen samples, st') /\ ainv st' (l ++ map conv samples) (nv + zlen samples).
Proof.
  intros I Hs. unfold aWriteFrames. destruct st as [[[[[[f t] pt] enc] b] happy] reb out]. cbn [as_sink as_reb as_out].
  assert (I0 : ainv (AS (fseek f (w_nextpos t), t, pt, enc, b, true) reb out) l nv).
  { destruct I as (pk & ps & pl & E & Fp & HS & Rest). exists pk, ps, pl. split; [exact E|]. split; [exact Fp|]. split; [|exact Rest].
    cbn [as_sink] in *. destruct HS as (F2 & FP & -> & -> & HS). unfold sinkAt. split; [exact F2|]. split; [exact FP|]. split; [reflexivity|]. split; [reflexivity|].
    destruct HS as (H1 & H2 & H3 & H4 & _). auto. }
  pose proof (zlen_nonneg samples).
  destruct (aWriteLoop_ok (Z.to_nat (zlen samples) + 1) (AS (fseek f (w_nextpos t), t, pt, enc, b, true) reb out) l nv samples 0 Hs) as (st1 & E1 & I1); try lia.
  { rewrite zfirstn_0 by lia. cbn [map]. rewrite app_nil_r. exact I0. }
  rewrite E1. cbn [rbind]. destruct st1 as [[[[[[f1 t1] pt1] enc1] b1] happy1] reb1 out1]. cbn [as_sink as_reb as_out].
  eexists. split; [reflexivity|]. destruct I1 as (pk & ps & pl & E & Fp & HS & Rest). exists pk, ps, pl. split; [exact E|]. split; [exact Fp|]. split; [|exact Rest].
  cbn [as_sink] in *. destruct HS as (F2 & FP & -> & -> & HS). unfold sinkAt. split; [exact F2|]. split; [exact FP|]. split; [reflexivity|]. split; [reflexivity|exact HS].
Qed.

Lemma writes_ok ws : forall st l nv, ainv st l nv -> Forall (alacFrame depth channels) (map conv (concat ws)) -> forall rest,
  exists st', awrun (W := Wrapping) fr depth channels conv junk cookie st (map Write ws ++ rest) = awrun (W := Wrapping) fr depth channels conv junk cookie st' rest /\
    ainv st' (l ++ map conv (concat ws)) (nv + zlen (concat ws)).
Proof.
  induction ws as [|w ws IH]; intros st l nv I Hs rest; cbn [map app concat].
  - exists st. split; [reflexivity|]. rewrite app_nil_r, zlen_nil, Z.add_0_r. exact I.
  - cbn [concat] in Hs. rewrite map_app in Hs. apply Forall_app in Hs as [H1 H2].
    destruct (aWriteFrames_ok st l nv w I H1) as (st1 & E1 & I1). cbn [awrun awstep]. rewrite E1. cbn [rbind].
    destruct (IH st1 _ _ I1 H2 rest) as (st2 & E2 & I2). exists st2. split; [exact E2|]. rewrite map_app, zlen_app, app_assoc, Z.add_assoc. exact I2.
Qed.

(** The file after the closing sync: the packets, all but the last of them full, behind the header; then [alacUpdate]. *)
Lemma aSync_ok st l nv : ainv st l nv ->
  exists st' pk pl ps, aSyncFile (W := Wrapping) fr depth channels junk cookie st = Ok st' /\ l = concat pk ++ pl /\ Forall (fun p => zlen p = fr) pk /\ zlen pl < fr /\
    Forall2 (decodesTo fr depth channels) (map (@concat Z) (pk ++ [pl])) ps /\ Forall (Forall (alacFrame depth channels)) (pk ++ [pl]) /\
    exists t, w_dsize t = zlen (concat ps) /\ w_after t = first + zlen (concat ps) /\
    as_file st' = alacUpdate cookie (mkFile (overwrite hdr first (concat ps)) (first + zlen (concat ps))) t (mkPT (zlen l) 0 0 (map zlen ps)).
Proof.
  intros (pk & ps & pl & -> & Fp & HS & HF & [HW1 HW2] & Pd & Ho). unfold aSyncFile. destruct st as [[[[[[f t] pt] enc] b] happy] reb out]. cbn [as_sink as_reb as_out] in *.
  unfold rebSync1, offsetOkPush. replace ((0 <=? r_offset reb) && (r_offset reb <? fr)) with true by lia. rewrite rassert_true. cbn [rbind].
  unfold rebSync2, offsetOkPush. cbn [r_offset r_buffer r_savedOffset r_saved r_eof r_sent]. replace ((0 <=? r_offset reb) && (r_offset reb <? fr)) with true by lia. rewrite rassert_true. cbn [rbind].
  rewrite slice_ok by lia. cbn [rbind]. rewrite (zskipn_0 0) by lia. fold (pending reb).
  assert (Lp : zlen (pending reb) = r_offset reb) by (unfold pending; rewrite zlen_firstn; lia).
  rewrite blit_ok by lia. cbn [rbind].
  pose proof (blit_prefix out 0 (pending reb) ltac:(lia) ltac:(lia)) as Po. pose proof (blit_len out 0 (pending reb) ltac:(lia) ltac:(lia)) as Lo.
  set (outb1 := zfirstn 0 out ++ pending reb ++ zskipn (0 + zlen (pending reb)) out) in *. clearbody outb1.
  rewrite Lp, Z.add_0_l, (zfirstn_0 0) in Po by lia. cbn [app] in Po. rewrite Pd in Po.
  destruct (alacPush_step nv f t pt enc b happy pk ps outb1 (r_offset reb) pl HS ltac:(lia) ltac:(lia) Po Fp) as (q & [[[[[f1 t1] pt1] enc1] b1] h1] & E & HS' & Et).
  specialize (E (alacSync1 t) eq_refl). cbn beta iota in E. rewrite E. cbn [rbind].
  assert (Hpl : zlen pl = r_offset reb) by (rewrite Pd, zlen_map in Lp; exact Lp).
  destruct HS as (_ & _ & -> & -> & _). destruct HS' as (F2 & FP & Ef & Et1 & -> & _).
  assert (EC : concat (ps ++ [q]) = concat ps ++ q) by (rewrite concat_app; cbn [concat]; now rewrite app_nil_r).
  unfold alacSync2. rewrite Ef. unfold ftell, fmWrite, alacSync1, atrack. cbn [snd fpos w_first w_nextf w_totalf w_nextpos w_after w_dsize w_nextv w_totalv w_savedpos w_savednext].
  rewrite (proj2 (Z.eqb_eq _ _)) by (rewrite EC, zlen_app; lia). rewrite rassert_true. cbn [rbind].
  eexists _, pk, pl, (ps ++ [q]). split; [reflexivity|]. split; [reflexivity|]. split; [exact HF|]. split; [lia|]. split; [exact F2|]. split; [exact FP|].
  unfold as_file. cbn [as_sink]. eexists. split; [|split; [|enough (EL : concat (pk ++ [pl]) = concat pk ++ pl) by (rewrite EL; reflexivity); rewrite concat_app; cbn [concat]; now rewrite app_nil_r]].
  - cbn [w_dsize]. rewrite EC, zlen_app. reflexivity.
  - cbn [w_after]. reflexivity.
Qed.

Lemma aOpen_inv cap b : bytes_ok b = true -> workable fr depth channels (zlen b) -> fr <= cap -> ainv (aOpenWrite fr hdr first cap b) [] 0.
Proof.
  intros Hb Hw Hc. exists [], [], []. cbn [concat app]. split; [reflexivity|]. split; [constructor|]. split; [|split; [constructor|]].
  - unfold aOpenWrite, sinkAt. cbn [as_sink map concat]. split; [constructor|]. split; [constructor|]. split; [cbn [overwrite]; change (zlen (@nil Z)) with 0; rewrite Z.add_0_r; reflexivity|].
    split; [unfold atrack; change (zlen (@nil Z)) with 0; rewrite Z.add_0_r; reflexivity|]. split; [reflexivity|]. split; [intros i; apply freshChan_ok|]. auto.
  - cbn [aOpenWrite as_reb as_out]. destruct (@rebInitPush_W (list Z) fr ltac:(lia)) as [H1 H2]. split; [exact H1|]. split; [exact H2|]. rewrite zlen_repeat by lia. lia.
Qed.
End Proofs.
