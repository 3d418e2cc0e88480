(** Proofs about whole histories of writes and syncs. *)
From Verif Require Import Prelude PreludeFacts FileIO Rebuffer RebufferProofs Reader Writer WriterSpec WriterProofs.

Lemma wrun_app {B : Build} {F V E} (c : wcodec F E) (conv : V -> F) junk seekok upd st a b :
  wrun c conv junk seekok upd st (a ++ b) = do st <- wrun c conv junk seekok upd st a; wrun c conv junk seekok upd st b.
Proof.
  revert st. induction a as [|o a IH]; intros st; [reflexivity|]. cbn [app wrun].
  destruct (wstep c conv junk seekok upd st o); try reflexivity. cbn [rbind]. apply IH.
Qed.

Section History.
Context {B : Build}.
Context {F V E : Type} (c : wcodec F E) (conv : V -> F) (junk : F) (upd : file -> wtrack -> file) (okF : F -> Prop) (okE : E -> Prop).
Hypothesis Hlaw : lawful c okF okE.
Hypothesis Hjunk : okF junk.

Notation run := (wrun c conv junk true upd).

Lemma writes_ok b st l nv ws : 0 <= w_nextpos (bT b) -> binv c junk okF okE b st l nv ->
  Forall okF (map conv (concat ws)) ->
  exists st', run st (map Write ws) = Ok st' /\ binv c junk okF okE b st' (l ++ map conv (concat ws)) (nv + zlen (concat ws)).
Proof.
  intros Hp. revert st l nv. induction ws as [|w ws IH]; intros st l nv I Hf.
  - exists st. split; [reflexivity|]. cbn [concat map]. rewrite app_nil_r, zlen_nil, Z.add_0_r. exact I.
  - cbn [concat] in Hf. rewrite map_app in Hf. apply Forall_app in Hf. destruct Hf as [F1 F2].
    destruct (afWriteFrames_ok c conv junk true okF okE Hlaw Hjunk b st l nv w Hp) as (st1 & E1 & I1); auto.
    { rewrite (binv_seeked c junk true okF okE Hlaw b st l nv I). exact I. }
    destruct (IH st1 _ _ I1 F2) as (st2 & E2 & I2). exists st2. cbn [map wrun wstep]. rewrite E1. cbn [rbind]. split; [exact E2|].
    cbn [concat]. rewrite map_app, app_assoc, zlen_app, Z.add_assoc. exact I2.
Qed.

Variables (hdr : list Z) (first cap : Z) (e0 : E).
Hypothesis Hfirst : 0 <= first.
Hypothesis He0 : okE e0.
Hypothesis Hcap : match c with WBlocks fpp _ _ => fpp <= cap | _ => True end.

(** The state after opening. *)
Definition base0 : base F E := mkBase hdr (mkWT first 0 0 first 0 0 0 0 (-1) (-1)) e0 []
  (match c with WBlocks fpp _ _ => zrepeat junk fpp | _ => [] end).

Lemma open_binv : binv c junk okF okE base0 (openWrite c hdr first cap e0) [] 0.
Proof.
  unfold binv, openWrite, base0. destruct c as [isPCM bpf enc|fpp bpp encB].
  - cbn [map concat bB bT ws_file ws_track]. znil. split; [cbn; f_equal; lia|]. split; [unfold zlen; cbn; lia|].
    unfold afterT. cbn. f_equal; lia.
  - destruct Hlaw as (B1 & B2 & Henc). cbn [bPend bPrev bB bT bE ws_file ws_track ws_enc ws_reb ws_out]. exists [], []. cbn [app map].
    split; [reflexivity|]. split; [constructor|]. split; [constructor|]. split.
    { exists O, []. cbn [map blk encRun bE bB bT]. rewrite ?(@zlen_nil F), ?(@zlen_nil Z), ?(@zlen_nil (option F)).
      split; [lia|]. split; [reflexivity|]. split; [lia|]. split; [exact He0|]. split; [cbn; f_equal; lia|]. unfold afterT. cbn. f_equal; lia. }
    destruct (rebInitPush_W (A := F) fpp B1) as [W0 P0].
    split; [exact W0|]. split; [exact P0|]. split; [rewrite zlen_repeat by lia; lia|].
    cbn [lastb]. rewrite zlen_nil. f_equal. unfold zfirstn, zrepeat.
    assert (Er : forall a k : nat, (k <= a)%nat -> firstn k (repeat (@None F) a) = repeat None k).
    { clear. induction a as [|a IH]; intros k Hk; destruct k; cbn; try reflexivity; [lia|]. rewrite IH by lia. reflexivity. }
    rewrite Er by lia. induction (Z.to_nat fpp) as [|k IHk]; cbn; [reflexivity|now rewrite IHk].
Qed.

Lemma base0_prev : zlen (bPrev base0) = match c with WBlocks fpp _ _ => fpp | _ => zlen (bPrev base0) end /\ Forall okF (bPrev base0).
Proof.
  unfold base0. cbn [bPrev]. destruct c as [isPCM bpf enc|fpp bpp encB]; [split; [reflexivity|constructor]|].
  destruct Hlaw as (B1 & _). split; [apply zlen_repeat; lia|]. apply Forall_forall. intros x Hx. apply repeat_spec in Hx. now subst.
Qed.

(** PCM positions must fit in an int at a sync. *)
Definition smallPCM (n : Z) : Prop :=
  match c with WPerFrame true bpf _ => first + bpf * n < 2 ^ 31 | _ => True end.

Lemma smallPCM_fits n : 0 <= n -> smallPCM n -> match c with WPerFrame true bpf _ => n < 2 ^ 31 | _ => True end.
Proof.
  intros Hn. unfold smallPCM. pose proof Hlaw as H. destruct c as [[|] bpf enc|]; auto. destruct H as [Bp _]. nia.
Qed.

(** Track after writing [l] from the beginning and one sync. *)
Definition inInt (isPCM : bool) (x : Z) : Z := if isPCM then s32 x else x.
Definition finalTrack (l : list F) (d : list Z) (n : Z) : wtrack :=
  match c with
  | WPerFrame p _ _ => mkWT first (inInt p (zlen l)) (zlen l) (inInt p (first + zlen d)) (first + zlen d) (zlen d) n n
                         (inInt p (first + zlen d)) (inInt p (zlen l))
  | WBlocks fpp bpp _ =>
      let m := zlen l / fpp in
      mkWT first (fpp * m) (zlen l) (first + bpp * m) (first + zlen d) (zlen d) n n (first + bpp * m) (fpp * m)
  end.

Lemma part_cut fpp b rl pl m k : 0 < fpp -> zlen (bPrev b) = fpp -> zlen rl = fpp * Z.of_nat m -> zlen pl < fpp ->
  (length (rl ++ pl) <= k)%nat ->
  cut k fpp (bPrev b) (rl ++ pl) = blk m fpp rl ++ @partBlock F E fpp b rl pl.
Proof. intros. unfold partBlock. apply cut_blocks; auto. Qed.

(** Writes without an intervening sync. *)
Lemma writes_sync ws : Forall okF (map conv (concat ws)) ->
  let l := map conv (concat ws) in
  exists d st, audio c junk e0 l = Ok d /\ run (openWrite c hdr first cap e0) (map Write ws ++ [Sync]) = Ok st /\
    ws_track st = finalTrack l d (zlen (concat ws)) /\
    ws_file st = upd (mkFile (overwrite hdr first d) (first + zlen d)) (finalTrack l d (zlen (concat ws))).
Proof.
  intros Hf l. destruct (writes_ok base0 (openWrite c hdr first cap e0) [] 0 ws Hfirst open_binv Hf) as (st1 & E1 & I1).
  cbn [app] in I1. fold l in I1. rewrite Z.add_0_l in I1. pose proof (zlen_nonneg (concat ws)) as Hz.
  assert (Ll : zlen l = zlen (concat ws)) by (unfold l; apply zlen_map).
  destruct base0_prev as [Hp1 Hp2].
  destruct (match c as c0 return c = c0 -> _ with WPerFrame p bpf enc => fun e => or_introl (ex_intro _ p (ex_intro _ bpf (ex_intro _ enc e))) | WBlocks _ _ _ => fun e => or_intror (ex_intro _ _ (ex_intro _ _ (ex_intro _ _ e))) end eq_refl
    : (exists p bpf enc, c = WPerFrame p bpf enc) \/ (exists fpp bpp encB, c = WBlocks fpp bpp encB)) as [(isPCM & bpf & enc & Ec)|(fpp & bpp & encB & Ec)].
  { pose proof I1 as I1'. unfold binv in I1'. rewrite Ec in I1'. destruct I1' as (If & Il & It).
    pose proof (binv_pos c junk okF okE Hlaw base0 st1 l _ I1) as Hpos.
    exists (concat (map enc l)). eexists. split; [unfold audio; rewrite Ec; reflexivity|]. split.
    - rewrite wrun_app, E1. cbn [rbind wrun wstep]. unfold afSyncFile, modulesSync, fileSync1, fileSync2. rewrite Ec.
      unfold ftell, rassert. rewrite Hpos. cbn [w_nextpos]. rewrite Z.eqb_refl, orb_true_r. cbn [rbind]. reflexivity.
    - unfold wsetFile, wsetTrack. cbn [ws_track ws_file]. unfold finalTrack. rewrite Ec, If, It. unfold base0, afterT, inInt.
      cbn [bB bT w_first w_nextf w_totalf w_nextpos w_after w_dsize w_nextv w_totalv w_savedpos w_savednext].
      assert (Et : (if zlen l =? 0 then 0 else 0 + zlen l) = zlen l) by (destruct (Z.eqb_spec (zlen l) 0); lia). rewrite Et, !Z.add_0_l.
      destruct isPCM; auto. }
  destruct (modulesSync_ok c junk true okF okE Hlaw base0 st1 l (zlen (concat ws)) Hfirst Hp1 Hp2 He0) as (st2 & E2 & S2); auto.
  { unfold fitsInt. rewrite Ec. exact I. }
  pose (st3 := wsetFile st2 (upd (ws_file st2) (ws_track st2))).
  assert (Ew : run (openWrite c hdr first cap e0) (map Write ws ++ [Sync]) = Ok st3).
  { rewrite wrun_app, E1. cbn [rbind wrun wstep]. unfold afSyncFile. rewrite E2. reflexivity. }
  unfold synced in S2. unfold audio, finalTrack.
  pose proof Hlaw as Hlaw'. unfold base0 in S2. rewrite Ec in *.
  - destruct S2 as (rl & pl & m & d & e & dp & El & Fr & Fp & Lr & Lp & R1 & R2 & Oe & Ld & Ldp & Ef & Et & HW & Pd & Ho & St).
    cbn [bPend bT bB bE w_first w_nextf w_totalf w_nextpos w_after w_dsize w_nextv w_totalv app] in *.
    destruct Hlaw' as (B1 & B2 & Henc).
    exists (d ++ dp), st3. split.
    { rewrite <- encRun_all. set (b := mkBase _ _ _ _ _) in *. change (zrepeat junk fpp) with (bPrev b). rewrite El.
      rewrite (part_cut fpp b rl pl m) by (auto; apply zlen_repeat; lia).
      rewrite encRun_app, R1. cbn [rbind]. rewrite R2. reflexivity. }
    split; [exact Ew|]. unfold st3, wsetFile. cbn [ws_track ws_file]. rewrite Ef, Et.
    assert (Hm : Z.of_nat m = zlen l / fpp).
    { rewrite El, zlen_app, Lr. symmetry. pose proof (zlen_nonneg pl). rewrite Z.mul_comm, Z.div_add_l by lia. rewrite Z.div_small by lia. lia. }
    assert (Ht : 0 + zlen rl + zlen pl = zlen l) by (rewrite El, zlen_app; lia).
    rewrite Ht, !Z.add_0_l. rewrite Ld, Lr, Hm. auto.
Qed.

(** *** Histories with syncs *)

(** No sync directly after another sync. *)
Fixpoint spaced (afterSync : bool) (ops : list (@wop V)) : Prop :=
  match ops with
  | [] => True
  | Sync :: ops' => afterSync = false /\ spaced true ops'
  | Write _ :: ops' => spaced false ops'
  end.

(** The encoder's output does not depend on what it encoded before. *)
Definition stateless : Prop :=
  match c with WPerFrame _ _ _ => True | WBlocks fpp _ encB =>
    forall e e' b, okE e -> okE e' -> zlen b = fpp -> Forall okF b -> rmap fst (encB e b) = rmap fst (encB e' b) end.

(** A header update that leaves the audio data alone. *)
Definition updKeeps : Prop := forall f t, w_first t = first ->
  region (fbytes (upd f t)) first (w_after t - first) = region (fbytes f) first (w_after t - first).

Hypothesis Hstateless : stateless.

(** Anything about the file that writing audio data does not change (what precedes the data) and header
    updates keep. *)
Variable P : list Z -> Prop.
(** The audio data stays below [limit]. *)
Variable limit : Z.
Definition goodTrack (t : wtrack) : Prop :=
  w_first t = first /\ first <= w_after t <= limit /\
  match c with WPerFrame _ bpf _ => w_after t = first + w_dsize t /\ w_dsize t = bpf * w_totalf t | _ => True end.
(** Header updates leave the audio data alone, for the tracks that occur. *)
Hypothesis Hupd : forall f t, goodTrack t -> w_after t = first \/ w_after t <= zlen (fbytes f) ->
  region (fbytes (upd f t)) first (w_after t - first) = region (fbytes f) first (w_after t - first).
Hypothesis HPow : forall b p d, first <= p -> p + zlen d <= limit -> P b -> P (overwrite b p d).
Hypothesis HPupd : forall f t, goodTrack t -> P (fbytes f) -> P (fbytes (upd f t)).
(** Bytes of audio data for [n] frames. *)
Definition extent (n : Z) : Z :=
  match c with WPerFrame _ bpf _ => bpf * n | WBlocks fpp bpp _ => bpp * ((n + fpp - 1) / fpp) end.
Lemma extent_mono n m : n <= m -> extent n <= extent m.
Proof.
  intros H. unfold extent. pose proof Hlaw as HL. destruct c as [p bpf enc|fpp bpp encB].
  - destruct HL as [HL _]. nia.
  - destruct HL as (H1 & H2 & _). apply Z.mul_le_mono_nonneg_l; [lia|]. apply Z.div_le_mono; lia.
Qed.
Hypothesis HPhdr : P hdr.

(** Encoding of complete blocks. *)
Definition encFull (D : list F) (d : list Z) : Prop :=
  match c with
  | WPerFrame _ bpf enc => d = concat (map enc D) /\ zlen d = bpf * zlen D
  | WBlocks fpp bpp encB => exists m, zlen D = fpp * Z.of_nat m /\ rmap fst (encRun encB e0 (blk m fpp D)) = Ok d /\ zlen d = bpp * Z.of_nat m
  end.

(** [D]: frames whose encoding was final at the last sync, [d] their bytes. *)
Definition hbase (b : base F E) (D : list F) (d : list Z) : Prop :=
  encFull D d /\ Forall okF D /\ Forall okF (bPend b) /\ Forall okF (bPrev b) /\ okE (bE b) /\
  w_first (bT b) = first /\ w_nextpos (bT b) = first + zlen d /\ w_nextf (bT b) = zlen D /\
  region (bB b) first (zlen d) = d /\
  match c with
  | WPerFrame _ _ _ => bPend b = [] /\ w_totalf (bT b) = zlen D /\ w_dsize (bT b) = zlen d
  | WBlocks fpp _ _ => zlen (bPrev b) = fpp /\ bPrev b = lastb fpp D (zrepeat junk fpp) /\ zlen (bPend b) < fpp
  end.

Lemma region_full bb n d : 0 <= n -> region bb n (zlen d) = d -> d = [] \/ n + zlen d <= zlen bb.
Proof.
  intros Hn H. destruct d as [|x d]; [auto|]. right. apply (f_equal (@zlen Z)) in H. unfold region in H.
  rewrite zlen_cons in H |- *. pose proof (zlen_nonneg d). rewrite zlen_firstn, zlen_skipn in H by lia. lia.
Qed.

Lemma encRun_stateless fpp bpp encB blocks : c = WBlocks fpp bpp encB -> forall e e', okE e -> okE e' -> Forall (fun b => zlen b = fpp /\ Forall okF b) blocks ->
  rmap fst (encRun encB e blocks) = rmap fst (encRun encB e' blocks).
Proof.
  intros Ec e e' He He' H. pose proof Hlaw as HL. pose proof Hstateless as HSt. unfold stateless in HSt. rewrite Ec in HL, HSt.
  destruct HL as (B1 & B2 & Henc). revert e e' He He'. induction H as [|b bs [Lb Fb] _ IH]; intros e e' He He'; [reflexivity|].
  cbn [encRun]. destruct (Henc e b He Lb Fb) as (d & e1 & E1 & _ & O1). destruct (Henc e' b He' Lb Fb) as (d' & e1' & E1' & _ & O1').
  specialize (HSt e e' b He He' Lb Fb). rewrite E1, E1' in *. cbn [rmap rbind fst] in *. injection HSt as <-.
  specialize (IH e1 e1' O1 O1'). destruct (encRun encB e1 bs) as [[ds e2]| | |], (encRun encB e1' bs) as [[ds' e2']| | |]; cbn in *; congruence.
Qed.

Definition hinv (st : wstate F E) (all : list F) (afterSync : bool) : Prop :=
  exists b D d l nv, hbase b D d /\ P (bB b) /\ binv c junk okF okE b (wseeked true st) l nv /\ all = D ++ bPend b ++ l /\ Forall okF l /\
    w_nextv (bT b) + nv = zlen all /\ w_totalv (bT b) + nv = zlen all /\ (if afterSync then bT b = ws_track st /\ bB b = fbytes (ws_file st) /\ l = [] else wseeked true st = st).

(** The result of a sync. *)
Definition syncedOk (st : wstate F E) (all : list F) : Prop :=
  exists d, audio c junk e0 all = Ok d /\ region (fbytes (ws_file st)) first (zlen d) = d /\
    w_totalf (ws_track st) = zlen all /\ w_totalv (ws_track st) = zlen all /\ w_after (ws_track st) = first + zlen d /\
    match c with WPerFrame _ _ _ => w_dsize (ws_track st) = zlen d | _ => True end.

Lemma hsync st all : hinv st all false -> smallPCM (zlen all) -> first + extent (zlen all) <= limit ->
  exists st', wstep c conv junk true upd st Sync = Ok st' /\ hinv st' all true /\ syncedOk st' all /\
    exists f0, P (fbytes f0) /\ ws_file st' = upd f0 (ws_track st') /\ goodTrack (ws_track st').
Proof.
  intros (b & D & d & l & nv & HB & HP & I & Ea & Fl & V1 & V2 & Sk) Hs Hlim. rewrite Sk in I.
  pose proof HB as (H1 & H2 & H3 & H4 & H5 & H6 & H7 & H8 & H9 & H10).
  pose proof (zlen_nonneg d) as Zd. pose proof (zlen_nonneg D) as ZD. pose proof (zlen_nonneg l) as Zl.
  assert (Hp : 0 <= w_nextpos (bT b)) by lia.
  destruct (modulesSync_ok c junk true okF okE Hlaw b st l nv Hp) as (st2 & E2 & S2); auto.
  { destruct c; [reflexivity|apply H10]. }
  { unfold fitsInt. unfold encFull in H1. pose proof (smallPCM_fits _ (zlen_nonneg all) Hs) as Hs'. unfold smallPCM in Hs. rewrite Ea in Hs, Hs'.
    destruct c as [[|] bpf enc|] eqn:Ec; auto. destruct H10 as (Hpn & _). rewrite Hpn in Hs, Hs'. cbn [app] in Hs, Hs'. rewrite zlen_app in Hs, Hs'. destruct H1 as [_ H1].
    rewrite H7, H8, H1. nia. }
  assert (HX : forall x, region (overwrite (bB b) (first + zlen d) x) first (zlen (d ++ x)) = d ++ x) by (intros x; apply ow_region_extend; [exact Hfirst|exact H9|apply region_full; auto]).
  assert (HY : forall x, first + zlen d + zlen x = first \/ first + zlen d + zlen x <= zlen (overwrite (bB b) (first + zlen d) x)).
  { intros x. destruct (region_full _ _ _ Hfirst (HX x)) as [EX|EX]; [left; apply (f_equal (@zlen Z)) in EX; rewrite zlen_app, zlen_nil in EX; lia|right; rewrite zlen_app in EX; lia]. }
  assert (HP2 : (P (fbytes (ws_file st2)) /\ (w_after (ws_track st2) = first \/ w_after (ws_track st2) <= zlen (fbytes (ws_file st2)))) /\ goodTrack (ws_track st2)).
  { pose proof S2 as S3. unfold synced in S3. unfold goodTrack. unfold extent in Hlim. unfold encFull in H1. pose proof Hlaw as HL. destruct c as [isPCM bpf enc|fpp bpp encB].
    - destruct S3 as (Lc & -> & ->). cbn [fbytes w_first w_after w_dsize w_totalf]. destruct H1 as [_ H1]. destruct H10 as (Hpe & Htf & Hds).
      rewrite Hpe in Ea. cbn [app] in Ea. rewrite Ea, zlen_app in Hlim. pose proof (zlen_nonneg (concat (map enc l))) as Zc.
      split; [split; [apply HPow; [lia|lia|exact HP]|rewrite H7; apply HY]|]. split; [exact H6|]. split; [lia|]. split; [lia|]. rewrite Hds, Htf, H8. destruct (zlen l =? 0) eqn:E0; [|lia].
      assert (zlen l = 0) as El0 by lia. rewrite El0 in *. lia.
    - destruct S3 as (rl & pl & m & d1 & e & dp & El & _ & _ & Lr & Lp & _ & _ & _ & Ld & Ldp & -> & -> & _). cbn [fbytes w_first w_after].
      destruct H1 as (M & LD & _ & Ld0). destruct HL as (B1 & B2 & _).
      assert (Hb : first + zlen d + zlen (d1 ++ dp) <= limit).
      { etransitivity; [|exact Hlim]. rewrite zlen_app, Ld, Ldp, Ld0. rewrite Ea, El, !zlen_app, LD, Lr.
        assert (Hk : (fpp * Z.of_nat M + (fpp * Z.of_nat m + zlen pl) + fpp - 1) / fpp = Z.of_nat M + Z.of_nat m + (zlen pl + fpp - 1) / fpp).
        { replace (fpp * Z.of_nat M + (fpp * Z.of_nat m + zlen pl) + fpp - 1) with ((Z.of_nat M + Z.of_nat m) * fpp + (zlen pl + fpp - 1)) by lia.
          apply Z.div_add_l. lia. }
        rewrite Hk. assert (zlen (partBlock fpp b rl pl) <= (zlen pl + fpp - 1) / fpp).
        { unfold partBlock. destruct pl as [|x pl']; [change (zlen (@nil F)) with 0; change (zlen (@nil (list F))) with 0; apply Z.div_pos; lia|].
          apply Z.div_le_lower_bound; [lia|]. rewrite !zlen_cons, zlen_nil. pose proof (zlen_nonneg pl'). lia. }
        nia. }
      pose proof (zlen_nonneg (d1 ++ dp)) as Zc.
      split; [split; [apply HPow; [lia|lia|exact HP]|rewrite H7; apply HY]|]. split; [exact H6|]. split; [lia|exact Logic.I]. }
  destruct HP2 as [[HP2 HF2] Hw2]. pose proof (HPupd _ _ Hw2 HP2) as HP3.
  exists (wsetFile st2 (upd (ws_file st2) (ws_track st2))). split; [cbn [wstep]; unfold afSyncFile; rewrite E2; reflexivity|].
  apply and_assoc. split; [|exists (ws_file st2); split; [exact HP2|split; [reflexivity|exact Hw2]]]. clear HP2.
  destruct (synced_base c junk true okF okE Hlaw b l nv st2 upd eq_refl Hp S2) as (b' & I' & Q1 & Q2 & Q3 & Q4).
  unfold hinv, syncedOk. unfold synced in S2. pose proof Hlaw as Hlaw'. pose proof Hstateless as HSt. pose proof part_cut as PC. pose proof encRun_stateless as ERS.
  pose proof (Hupd (ws_file st2) (ws_track st2) Hw2 HF2) as HU. clear HF2 HX HY. unfold audio. unfold hbase, encFull in *. unfold wsetFile at 3 4 5 6 7. cbn [ws_file ws_track].
  destruct c as [isPCM bpf enc|fpp bpp encB] eqn:Ec.
  - destruct H1 as [H1 H1']. destruct H10 as (Hpe & Htf & Hds). destruct S2 as (L2 & F2 & T2). rewrite Hpe in Ea. cbn [app] in Ea.
    set (d2 := concat (map enc l)) in *.
    assert (Ed : concat (map enc all) = d ++ d2) by (rewrite Ea, map_app, concat_app, H1; reflexivity).
    assert (ER : region (fbytes (upd (ws_file st2) (ws_track st2))) first (zlen (d ++ d2)) = d ++ d2).
    { replace (zlen (d ++ d2)) with (w_after (ws_track st2) - first) by (rewrite T2; cbn [w_after]; rewrite zlen_app; lia).
      rewrite HU. rewrite T2. cbn [w_after]. rewrite F2. cbn [fbytes]. rewrite H7.
      replace (first + zlen d + zlen d2 - first) with (zlen (d ++ d2)) by (rewrite zlen_app; lia).
      apply ow_region_extend; [exact Hfirst|exact H9|apply region_full; auto]. }
    pose proof (zlen_nonneg d2) as Zd2. set (U := fbytes (upd (ws_file st2) (ws_track st2))) in *.
    split.
    + exists (mkBase (bB b') (bT b') e0 [] []), all, (d ++ d2), [], 0. cbn [bB bT bE bPend bPrev].
      split.
      { split; [split; [auto|rewrite Ea, !zlen_app; nia]|].
        split; [rewrite Ea; apply Forall_app; auto|]. split; [constructor|]. split; [constructor|].
        split; [exact He0|]. rewrite Q1, Q2, T2. cbn [w_first w_nextpos w_nextf w_totalf w_dsize].
          split; [exact H6|]. split; [rewrite zlen_app; lia|]. split; [rewrite Ea, zlen_app; lia|]. split; [exact ER|].
          split; [reflexivity|]. split; [rewrite Ea, zlen_app; destruct (Z.eqb_spec (zlen l) 0); lia|rewrite zlen_app; lia]. }
      split; [rewrite Q1; exact HP3|]. split; [exact I'|]. split; [cbn [bPend app]; rewrite ?app_nil_r; reflexivity|]. split; [constructor|]. rewrite Q2, T2. cbn [w_nextv w_totalv].
      split; [lia|]. split; [lia|]. unfold wsetFile; cbn [ws_track ws_file]. rewrite ?Q1; auto.
    + exists (d ++ d2). split; [now rewrite Ed|]. split; [exact ER|]. rewrite T2. cbn [w_totalf w_totalv w_after w_dsize].
      assert (Lall : zlen all = zlen D + zlen l) by (rewrite Ea, zlen_app; reflexivity). rewrite zlen_app.
      split; [destruct (Z.eqb_spec (zlen l) 0); lia|]. split; [lia|]. split; [lia|]. unfold wsetFile; cbn [ws_track]. rewrite ?T2. cbn [w_dsize]. lia.
  - destruct H1 as (M & LD & RD & Ld0). destruct H10 as (LP & Epv & _). clear S2.
    destruct Q4 as (rl & m & d1 & e & dp & El & Fr & Fp & Lr & Lp & R1 & R2 & Oe & Ld & Ldp & Ef & Et & Ep').
    destruct Hlaw' as (B1 & B2 & Henc). set (pl := bPend b') in *.
    assert (Eall : all = (D ++ rl) ++ pl) by (rewrite Ea, El, app_assoc; reflexivity).
    assert (G1 : Forall (fun x => zlen x = fpp /\ Forall okF x) (blk m fpp rl)) by (apply blk_forall; [lia|lia|exact Fr]).
    assert (Lb : lastb fpp (D ++ rl) (zrepeat junk fpp) = lastb fpp rl (bPrev b)).
    { rewrite Epv. destruct rl as [|x rl']; [rewrite app_nil_r; reflexivity|]. set (rl := x :: rl') in *.
      assert (Hge : fpp <= zlen rl) by (destruct m; [change (zlen rl) with (zlen (x :: rl')) in Lr; rewrite zlen_cons in Lr; pose proof (zlen_nonneg rl'); lia|nia]).
      unfold lastb at 1. destruct (D ++ rl) as [|y ys] eqn:Ey; [apply (f_equal (@zlen F)) in Ey; rewrite zlen_app in Ey; change (zlen (@nil F)) with 0 in Ey; lia|].
      rewrite <- Ey, zlen_app. rewrite zskipn_app_r by lia. unfold lastb, rl. fold rl. f_equal. lia. }
    assert (Lbl : zlen (lastb fpp rl (bPrev b)) = fpp) by (eapply lastb_len; eauto).
    assert (Fbl : Forall okF (lastb fpp rl (bPrev b))).
    { unfold lastb. destruct rl; [exact H4|apply Forall_skipn; exact Fr]. }
    assert (G2 : Forall (fun x => zlen x = fpp /\ Forall okF x) (partBlock fpp b rl pl)).
    { unfold partBlock. destruct pl as [|x pl']; constructor; [|constructor]. pose proof (zlen_nonneg (x :: pl')). split.
      - rewrite zlen_app, zlen_skipn by lia. lia.
      - apply Forall_app. split; [exact Fp|apply Forall_skipn; exact Fbl]. }
    (* the whole encoding from the start *)
    destruct (encRun_ok fpp bpp encB okF okE Henc (blk M fpp D) e0 He0) as (d0 & ea & Ra & La & Oa); [apply blk_forall; [lia|lia|exact H2]|].
    rewrite Ra in RD. cbn [rmap rbind fst] in RD. injection RD as ->.
    destruct (encRun_ok fpp bpp encB okF okE Henc (blk m fpp rl) ea Oa G1) as (d1' & eb & Rb & _ & Ob).
    assert (d1' = d1).
    { pose proof (ERS fpp bpp encB (blk m fpp rl) eq_refl ea (bE b) Oa H5 G1) as Q. rewrite Rb, R1 in Q. cbn in Q. congruence. } subst d1'.
    assert (Oe1 : okE e). { destruct (encRun_ok fpp bpp encB okF okE Henc (blk m fpp rl) (bE b) H5 G1) as (? & ? & Rx & _ & Ox). rewrite R1 in Rx. congruence. }
    destruct (encRun_ok fpp bpp encB okF okE Henc (partBlock fpp b rl pl) eb Ob G2) as (dp' & ec & Rc & _ & _).
    assert (dp' = dp).
    { pose proof (ERS fpp bpp encB (partBlock fpp b rl pl) eq_refl eb e Ob Oe1 G2) as Q. rewrite Rc, R2 in Q. cbn in Q. congruence. } subst dp'.
    assert (RDr : encRun encB e0 (blk (M + m) fpp (D ++ rl)) = Ok (d ++ d1, eb)).
    { rewrite blk_app by lia. rewrite encRun_app, Ra. cbn [rbind]. rewrite Rb. reflexivity. }
    assert (Eaud : encodeAll encB e0 (cut (length all) fpp (zrepeat junk fpp) all) = Ok (d ++ d1 ++ dp)).
    { rewrite <- encRun_all. pose (b2 := mkBase (bB b) (bT b) e0 pl (zrepeat junk fpp)).
      change (zrepeat junk fpp) with (bPrev b2). rewrite Eall.
      rewrite (PC fpp b2 (D ++ rl) pl (M + m)%nat); auto; [|apply zlen_repeat; lia|rewrite zlen_app; lia].
      rewrite encRun_app, RDr. cbn [rbind].
      assert (Epp : partBlock fpp b2 (D ++ rl) pl = partBlock fpp b rl pl).
      { unfold partBlock. cbn [b2 bPrev]. rewrite Lb. reflexivity. }
      rewrite Epp, Rc. cbn [rbind rmap fst]. now rewrite app_assoc. }
    assert (ER : region (fbytes (upd (ws_file st2) (ws_track st2))) first (zlen (d ++ d1 ++ dp)) = d ++ d1 ++ dp).
    { replace (zlen (d ++ d1 ++ dp)) with (w_after (ws_track st2) - first) by (rewrite Et; cbn [w_after]; rewrite !zlen_app; lia).
      rewrite HU. rewrite Et. cbn [w_after]. rewrite Ef. cbn [fbytes]. rewrite H7.
      replace (first + zlen d + zlen (d1 ++ dp) - first) with (zlen (d ++ d1 ++ dp)) by (rewrite !zlen_app; lia).
      apply ow_region_extend; [exact Hfirst|exact H9|apply region_full; auto]. }
    assert (ER1 : region (fbytes (upd (ws_file st2) (ws_track st2))) first (zlen (d ++ d1)) = d ++ d1).
    { rewrite app_assoc in ER. apply (f_equal (zfirstn (zlen (d ++ d1)))) in ER. rewrite zfirstn_exact in ER. unfold region in *.
      rewrite zfirstn_zfirstn in ER. rewrite Z.min_l in ER by (rewrite (zlen_app (d ++ d1)); pose proof (zlen_nonneg dp); lia). exact ER. }
    set (U := fbytes (upd (ws_file st2) (ws_track st2))) in *.
    split.
    + exists b', (D ++ rl), (d ++ d1), [], 0. split.
      { split; [exists (M + m)%nat; split; [rewrite zlen_app; lia|split; [rewrite RDr; reflexivity|rewrite zlen_app; lia]]|].
        split; [apply Forall_app; auto|]. split; [exact Fp|]. split; [rewrite Ep'; exact Fbl|]. split; [rewrite Q3; exact Oe|].
        rewrite Q1, Q2, Et. cbn [w_first w_nextpos w_nextf]. split; [exact H6|]. split; [rewrite zlen_app; lia|]. split; [rewrite zlen_app; lia|].
        split; [exact ER1|]. rewrite Ep'. split; [exact Lbl|]. split; [symmetry; exact Lb|exact Lp]. }
      split; [rewrite Q1; exact HP3|]. split; [exact I'|]. rewrite app_nil_r. split; [exact Eall|]. split; [constructor|]. rewrite Q2, Et. cbn [w_nextv w_totalv].
      split; [lia|]. split; [lia|]. unfold wsetFile; cbn [ws_track ws_file]. rewrite ?Q1; auto.
    + exists (d ++ d1 ++ dp). split; [exact Eaud|]. split; [exact ER|]. rewrite Et. cbn [w_totalf w_totalv w_after].
      split; [rewrite Eall, !zlen_app; lia|]. split; [lia|]. split; [rewrite !zlen_app; lia|exact Logic.I].
Qed.

Lemma hwrite st all a w : hinv st all a -> Forall okF (map conv w) ->
  exists st', wstep c conv junk true upd st (Write w) = Ok st' /\ hinv st' (all ++ map conv w) false.
Proof.
  intros (b & D & d & l & nv & HB & HP & I & Ea & Fl & V1 & V2 & Sk) Hw.
  pose proof HB as (H1 & H2 & H3 & H4 & H5 & H6 & H7 & H8 & H9 & H10). pose proof (zlen_nonneg d).
  destruct (afWriteFrames_ok c conv junk true okF okE Hlaw Hjunk b st l nv w) as (st1 & E1 & I1); auto; [lia|].
  exists st1. cbn [wstep]. rewrite E1. split; [reflexivity|].
  pose proof (binv_seeked c junk true okF okE Hlaw b st1 _ _ I1) as Sk1.
  exists b, D, d, (l ++ map conv w), (nv + zlen w). split; [exact HB|]. split; [exact HP|]. split; [rewrite Sk1; exact I1|].
  split; [rewrite Ea, <- !app_assoc; reflexivity|]. split; [apply Forall_app; auto|]. rewrite zlen_app, zlen_map. split; [lia|]. split; [lia|auto].
Qed.

Lemma open_hinv : hinv (openWrite c hdr first cap e0) [] false.
Proof.
  destruct base0_prev as [P1 P2]. pose proof open_binv as OB. pose proof (binv_seeked c junk true okF okE Hlaw base0 _ _ _ OB) as Sk.
  exists base0, [], [], [], 0. split.
  { unfold hbase, encFull. unfold base0 in *. split.
    { destruct c as [isPCM bpf enc|fpp bpp encB]; [split; [reflexivity|unfold zlen; cbn; lia]|]. exists O. cbn. unfold zlen; cbn. split; [lia|]. split; [reflexivity|lia]. }
    split; [constructor|]. split; [constructor|]. split; [exact P2|]. split; [exact He0|]. split; [reflexivity|].
    split; [cbn [bT w_nextpos]; rewrite zlen_nil; lia|]. split; [reflexivity|]. split; [reflexivity|].
    destruct c as [isPCM bpf enc|fpp bpp encB]; [auto|]. split; [exact P1|]. split; [reflexivity|]. cbn [bPend]. pose proof Hlaw as [HL1 _]. rewrite zlen_nil. lia. }
  split; [exact HPhdr|]. split; [rewrite Sk; exact OB|]. cbn [base0 bPend app]. split; [reflexivity|]. split; [constructor|]. split; [reflexivity|]. split; [reflexivity|auto].
Qed.

Lemma history_ok ops : forall st all a, hinv st all a -> spaced a ops -> Forall okF (map conv (written ops)) ->
  smallPCM (zlen all + zlen (written ops)) -> first + extent (zlen all + zlen (written ops)) <= limit ->
  exists st', run st ops = Ok st' /\
    (exists a', hinv st' (all ++ map conv (written ops)) a') /\
    (forall pre, ops = pre ++ [Sync] -> syncedOk st' (all ++ map conv (written ops)) /\ hinv st' (all ++ map conv (written ops)) true /\
       exists f0, P (fbytes f0) /\ ws_file st' = upd f0 (ws_track st') /\ goodTrack (ws_track st')).
Proof.
  induction ops as [|o ops IH]; intros st all a HI Hsp Hf Hsm Hlim.
  - exists st. split; [reflexivity|]. change (written (@nil (@wop V))) with (@nil V). cbn [map]. rewrite app_nil_r. split; [eauto|]. intros pre E0. destruct pre; discriminate.
  - assert (Ew : written (o :: ops) = (match o with Write l => l | Sync => [] end) ++ written ops) by reflexivity.
    rewrite Ew in *. rewrite map_app in *. apply Forall_app in Hf. destruct Hf as [Hf1 Hf2]. rewrite zlen_app in Hsm, Hlim.
    destruct o as [w|].
    + destruct (hwrite st all a w HI Hf1) as (st1 & E1 & I1). cbn [spaced] in Hsp.
      destruct (IH st1 _ _ I1 Hsp Hf2) as (st2 & E2 & I2 & S2). { rewrite zlen_app, zlen_map. rewrite Z.add_assoc in Hsm. exact Hsm. } { rewrite zlen_app, zlen_map. rewrite Z.add_assoc in Hlim. exact Hlim. }
      exists st2. cbn [wrun]. rewrite E1. cbn [rbind]. split; [exact E2|]. rewrite app_assoc. split; [exact I2|].
      intros pre E0. destruct pre as [|p pre]; [discriminate|]. injection E0 as _ E0. apply (S2 pre E0).
    + destruct Hsp as [-> Hsp]. cbn [app map] in *.
      destruct (hsync st all HI) as (st1 & E1 & I1 & S1 & U1).
      { unfold smallPCM in *. pose proof (zlen_nonneg (written ops)). rewrite zlen_nil in Hsm. pose proof Hlaw as HL. destruct c as [[|] bpf enc|]; auto. destruct HL as [HL _]. nia. }
      { pose proof (zlen_nonneg (written ops)). rewrite zlen_nil in Hlim. pose proof (extent_mono (zlen all) (zlen all + (0 + zlen (written ops))) ltac:(lia)). lia. }
      destruct (IH st1 _ _ I1 Hsp Hf2) as (st2 & E2 & I2 & S2). { rewrite zlen_nil in Hsm. exact Hsm. } { rewrite zlen_nil in Hlim. exact Hlim. }
      exists st2. cbn [wrun]. rewrite E1. cbn [rbind]. split; [exact E2|]. split; [exact I2|].
      intros pre E0. destruct pre as [|p pre].
      * injection E0 as ->. cbn [wrun] in E2. injection E2 as <-. change (written (@nil (@wop V))) with (@nil V). cbn [map]. rewrite app_nil_r. auto.
      * injection E0 as _ E0. apply (S2 pre E0).
Qed.

(** Writes after a sync only touch the file from the position of the next frame on. *)
Lemma writes_after st all ws : hinv st all true -> Forall okF (map conv (concat ws)) ->
  exists st' d', run st (map Write ws) = Ok st' /\
    fbytes (ws_file st') = overwrite (fbytes (ws_file st)) (w_nextpos (ws_track st)) d' /\
    exists D d, encFull D d /\ w_nextpos (ws_track st) = first + zlen d /\ region (fbytes (ws_file st)) first (zlen d) = d /\
      (exists pl, all = D ++ pl /\ match c with WPerFrame _ _ _ => pl = [] | WBlocks fpp _ _ => zlen pl < fpp end).
Proof.
  intros (b & D & d & l & nv & HB & HP & I & Ea & Fl & V1 & V2 & (T1 & T2 & ->)) Hf.
  pose proof HB as (H1 & H2 & H3 & H4 & H5 & H6 & H7 & H8 & H9 & H10). pose proof (zlen_nonneg d).
  rewrite app_nil_r in Ea.
  assert (HR : exists D d, encFull D d /\ w_nextpos (ws_track st) = first + zlen d /\ region (fbytes (ws_file st)) first (zlen d) = d /\
      (exists pl, all = D ++ pl /\ match c with WPerFrame _ _ _ => pl = [] | WBlocks fpp _ _ => zlen pl < fpp end)).
  { exists D, d. rewrite <- T1, <- T2. split; [exact H1|]. split; [exact H7|]. split; [exact H9|]. exists (bPend b). split; [exact Ea|].
    destruct c; [apply H10|apply H10]. }
  assert (HD : forall st' l' nv', binv c junk okF okE b st' l' nv' -> exists d', fbytes (ws_file st') = overwrite (fbytes (ws_file st)) (w_nextpos (ws_track st)) d').
  { intros st' l' nv' I'. unfold binv in I'. rewrite <- T1, <- T2. destruct c as [isPCM bpf enc|fpp bpp encB].
    - destruct I' as (-> & _). eexists. reflexivity.
    - destruct I' as (rl & pl & _ & _ & _ & (m & d0 & _ & _ & _ & _ & -> & _) & _). eexists. reflexivity. }
  destruct ws as [|w ws].
  - exists st, []. split; [reflexivity|]. split; [now rewrite ow_nil|exact HR].
  - cbn [concat] in Hf. rewrite map_app in Hf. apply Forall_app in Hf. destruct Hf as [F1 F2].
    destruct (afWriteFrames_ok c conv junk true okF okE Hlaw Hjunk b st [] nv w) as (st1 & E1 & I1); auto; [lia|].
    destruct (writes_ok b st1 _ _ ws ltac:(lia) I1 F2) as (st2 & E2 & I2). destruct (HD _ _ _ I2) as (d' & Ed).
    exists st2, d'. cbn [map wrun wstep]. rewrite E1. cbn [rbind]. auto.
Qed.
End History.
