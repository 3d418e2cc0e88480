(** * C70: changing the virtual format of a file being written *)
From Coq Require Import Floats.SpecFloat.
From Verif Require Import Prelude PreludeFacts FileIO Rebuffer RebufferProofs Reader Writer WriterSpec WriterProofs WriterHistory PropertiesWriter ByteOrder Convert Float Arrange ArrangeProofs Rates FloatBits Memory Virtual VirtualWrite PropertiesVirtual.
From Verif Require Import Codecs CodecsProofs IMA IMASpec.
From Verif Require MSADPCMSpec.
From Coq Require Import Lia.

(** ** Specification *)

(** What becomes of the caller's frame under some settings: the converter chain of C59, towards the file. *)
Definition into (wrapv : bool) (host : order) (s : settings) : frame -> res frame :=
  match arrange wrapv host false (g_user s) (g_file s) (g_matrix s) with Ok (Some ms) => runChain ms | _ => fun _ => UB end.
Definition storable (wrapv : bool) (host : order) (s : settings) : Prop :=
  exists ms, arrange wrapv host false (g_user s) (g_file s) (g_matrix s) = Ok (Some ms).

(** The frames a history of calls stores: each write converted by the settings in force when it is made. *)
Fixpoint stored (wrapv : bool) (host : order) (s : settings) (ops : list yop) : res (list frame) :=
  match ops with
  | [] => Ok []
  | YWrite l :: ops' => do a <- rmapM (into wrapv host s) l; do b <- stored wrapv host s ops'; Ok (a ++ b)
  | YSync :: ops' => stored wrapv host s ops'
  | YCall o :: ops' => stored wrapv host (apply s o) ops'
  end.
(** What the calls return; [n] frames have been written so far. *)
Fixpoint answers (s : settings) (n : Z) (ops : list yop) : list Z :=
  match ops with
  | [] => []
  | YWrite l :: ops' => zlen l :: answers s (n + zlen l) ops'
  | YSync :: ops' => 0 :: answers s n ops'
  | YCall o :: ops' =>
      match o with
      | VRead _ | VSeek _ | VTell => -1
      | VFrameCount => n
      | SetSampleFormat sf w => match setSampleFormat (g_user s) sf w with Some _ => 0 | None => -1 end
      | _ => 0
      end :: answers (apply s o) n ops'
  end.
(** The calls covered: no sync before the last call (C22 is about those); the rest as in [PropertiesVirtual.legal]. *)
Fixpoint wlegal (wrapv : bool) (host : order) (rate : spec_float) (s : settings) (marked late : bool) (ops : list yop) : Prop :=
  match ops with
  | [] => storable wrapv host s
  | YWrite _ :: ops' => storable wrapv host s /\ (marked = true \/ late = false) /\ wlegal wrapv host rate s false false ops'
  | YSync :: _ => False
  | YCall o :: ops' =>
      match o with
      | VRead _ | VSeek _ | VTell => wlegal wrapv host rate s marked late ops'
      | VFrameCount => storable wrapv host s /\ wlegal wrapv host rate s false (late && negb marked) ops'
      | SetRate r => r = rate /\ wlegal wrapv host rate s true late ops'
      | SetMatrix None => wlegal wrapv host rate (apply s o) marked (late || negb marked) ops'
      | SetMatrix (Some m) =>
          channelCount (g_user s) * channelCount (g_file s) <= zlen m /\ inS 32 (channelCount (g_user s) * channelCount (g_file s)) = true /\
          wlegal wrapv host rate (apply s o) marked (late || negb marked) ops'
      | SetSampleFormat sf w => wlegal wrapv host rate (apply s o) (match setSampleFormat (g_user s) sf w with Some _ => true | None => marked end) late ops'
      | _ => wlegal wrapv host rate (apply s o) true late ops'
      end
  end.
(** What a block codec needs to complete the last block. *)
Definition completes {F E} (c : wcodec F E) (l pad : list frame) : Prop :=
  match c with WPerFrame _ _ _ => pad = [] | WBlocks fpp _ _ => zlen pad < fpp /\ (zlen l + zlen pad) mod fpp = 0 end.

(** The integer whose low bytes are the sample's. *)
Definition val (x : smp) : Z := match x with SI _ z | SU _ z => z | SF f => bits32 f | SD f => bits64 f end.

(** ** Proofs *)
(** A codec of [Codecs] as one of frames of samples. *)
Definition liftW {E} (c : wcodec (list Z) E) : wcodec frame E :=
  match c with
  | WPerFrame p bpf enc => WPerFrame p bpf (fun fr => enc (map val fr))
  | WBlocks fpp bpp encB => WBlocks fpp bpp (fun e b => encB e (map (map val) b))
  end.
Lemma lawful_lift {E} (c : wcodec (list Z) E) okF okE : lawful c okF okE -> lawful (liftW c) (fun fr => okF (map val fr)) okE.
Proof.
  destruct c as [p bpf enc|fpp bpp encB]; cbn [lawful liftW].
  - intros [H1 H2]. split; [exact H1|]. intros x Hx. apply H2. exact Hx.
  - intros (H1 & H2 & H3). split; [exact H1|]. split; [exact H2|]. intros e b He Hl Hb. apply H3; [exact He|rewrite zlen_map; exact Hl|]. apply Forall_map. exact Hb.
Qed.
Lemma cut_map {X Y} (g : X -> Y) n k : forall prev l, map (map g) (cut k n prev l) = cut k n (map g prev) (map g l).
Proof.
  induction k as [|k IH]; intros prev l; [reflexivity|]. destruct l as [|x l]; [reflexivity|]. cbn [cut map]. set (b := zfirstn n (x :: l) ++ zskipn (zlen (x :: l)) prev).
  assert (Eb : map g b = zfirstn n (g x :: map g l) ++ zskipn (zlen (g x :: map g l)) (map g prev)).
  { unfold b. rewrite map_app, map_zfirstn, map_zskipn. cbn [map]. change (g x :: map g l) with (map g (x :: l)). rewrite zlen_map. reflexivity. }
  f_equal; [exact Eb|]. rewrite IH, Eb, map_zskipn. reflexivity.
Qed.
Lemma audio_lift {E} (c : wcodec (list Z) E) junk e0 l : audio (liftW c) junk e0 l = audio c (map val junk) e0 (map (map val) l).
Proof.
  destruct c as [p bpf enc|fpp bpp encB]; cbn [audio liftW]; [rewrite map_map; reflexivity|].
  replace (zrepeat (map val junk) fpp) with (map (map val) (zrepeat junk fpp)) by (unfold zrepeat; generalize (Z.to_nat fpp); intros n; induction n as [|n IH]; cbn; [reflexivity|now rewrite IH]).
  rewrite map_length, <- cut_map. change frame with (list smp) in *. set (bs := cut (length l) fpp (zrepeat junk fpp) l). clearbody bs. revert e0. induction bs as [|b bs IH]; intros e0; [reflexivity|]. cbn [encodeAll map].
  destruct (encB e0 (map (map val) b)) as [[d e]| | |]; try reflexivity. cbn [rbind]. rewrite IH. reflexivity.
Qed.
Lemma rmapM_zlen {X Y} (g : X -> res Y) l : forall a, rmapM g l = Ok a -> zlen a = zlen l.
Proof.
  induction l as [|x l IH]; intros a H; cbn [rmapM] in H; [assert (a = []) as -> by congruence; reflexivity|].
  destruct (g x) as [y| | |]; try discriminate. cbn [rbind] in H. destruct (rmapM g l) as [ys| | |]; try discriminate. cbn [rbind] in H.
  assert (a = y :: ys) as -> by congruence. rewrite !zlen_cons. f_equal. apply IH. reflexivity.
Qed.
Section Proofs.
Context {B : Build} {E : Type}.
Variables (wrapv : bool) (host : order) (c : wcodec frame E) (junk : frame) (upd : file -> wtrack -> file) (cap : Z) (okF : frame -> Prop) (okE : E -> Prop).
Hypothesis Hlaw : lawful c okF okE.
Hypothesis Hjunk : okF junk.
Variables (hdr : list Z) (first : Z) (e0 : E) (rate : spec_float).
Hypothesis Hfirst : 0 <= first.
Hypothesis He0 : okE e0.
Hypothesis Hcap : match c with WBlocks fpp _ _ => fpp <= cap | _ => True end.
Notation binv := (binv c junk okF okE).
Notation T0 := (mkWT first 0 0 first 0 0 0 0 (-1) (-1)).

Record yagree (st : ystate E) (s : settings) : Prop := {
  ya_file : y_file st = g_file s; ya_frate : y_frate st = rate; ya_user : y_user st = g_user s; ya_vrate : y_vrate st = rate;
  ya_matrix : y_matrix st = g_matrix s; ya_comp : compressed (g_user s) = false }.

(** [D]: frames whose blocks were encoded before the chain was last built, into the bytes [d]. *)
Definition based (b : base frame E) (D : list frame) (d : list Z) : Prop :=
  bB b = overwrite hdr first d /\ (exists n, bT b = afterT T0 (zlen D) (zlen d) n) /\ okE (bE b) /\ Forall okF D /\ Forall okF (bPend b) /\
  match c with
  | WPerFrame _ _ _ => D = [] /\ d = [] /\ bPend b = []
  | WBlocks fpp bpp encB => exists k, zlen D = fpp * Z.of_nat k /\ encRun encB e0 (blk k fpp D) = Ok (d, bE b) /\ zlen d = bpp * Z.of_nat k /\
      zlen (bPrev b) = fpp /\ Forall okF (bPrev b)
  end.
Definition wsinv (w : wstate frame E) (l : list frame) : Prop :=
  exists b D d l' nv, based b D d /\ binv b w l' nv /\ l = D ++ bPend b ++ l' /\ Forall okF l /\ w_nextv (bT b) + nv = zlen l /\ w_totalv (bT b) + nv = zlen l.

Lemma wsinv_track w l : wsinv w l -> w_nextv (ws_track w) = zlen l /\ w_totalv (ws_track w) = zlen l.
Proof.
  intros (b & D & d & l' & nv & Bd & I & _ & _ & N1 & N2). unfold WriterProofs.binv in I. destruct c as [p bpf enc|fpp bpp encB].
  - destruct I as (_ & _ & ->). cbn. lia.
  - destruct I as (rl & pl & _ & _ & _ & (m & d' & _ & _ & _ & _ & _ & ->) & _). cbn. lia.
Qed.
Lemma setCounts_same t n : w_nextv t = n -> w_totalv t = n -> setCounts t n = t.
Proof. destruct t. unfold setCounts. cbn. congruence. Qed.
Lemma base_pos b D d : based b D d -> w_nextpos (bT b) = first + zlen d /\ 0 <= w_nextpos (bT b).
Proof. intros (_ & [n ->] & _). cbn. pose proof (zlen_nonneg d). lia. Qed.

Lemma setup_wsinv w l : wsinv w l -> wsinv (mkWS (ws_file w) (ws_track w) (ws_enc w) (ws_reb w) (zrepeat None cap)) l.
Proof.
  intros (b & D & d & l' & nv & Bd & I & El & Fl & N1 & N2). destruct (base_pos _ _ _ Bd) as [Np Np0]. pose proof Hlaw as HL.
  destruct Bd as (B1 & [n B2] & B3 & B4 & B5 & B6). unfold wsinv, based, WriterProofs.binv in *. destruct c as [p bpf enc|fpp bpp encB] eqn:Ec.
  - exists b, D, d, l', nv. split; [eauto 10|]. cbn [ws_file ws_track]. auto.
  - destruct I as (rl & pl & A1 & A2 & A3 & (m & d' & P1 & P2 & P3 & P4 & P5 & P6) & HW & Pd & Ho & St).
    destruct HL as (L1 & L2 & Henc). rewrite (map_unjunk junk) in P2. rewrite zlen_map in P1, P6.
    destruct B6 as (k & K1 & K2 & K3 & K4 & K5).
    assert (Ert : forall a j : nat, (j <= a)%nat -> firstn j (repeat (@None frame) a) = repeat None j).
    { clear. induction a as [|a IH]; intros j Hj; destruct j; cbn; try reflexivity; [lia|]. rewrite IH by lia. reflexivity. }
    exists (mkBase (fbytes (ws_file w)) (ws_track w) (ws_enc w) pl (zrepeat junk fpp)), (D ++ rl), (d ++ d'), [], 0. cbn [bB bT bE bPend bPrev].
    assert (Lall : zlen l = zlen (D ++ rl) + zlen pl) by (rewrite El, A1, !zlen_app; lia).
    split; [|split; [|split; [|split; [exact Fl|split]]]].
    + split; [rewrite P5; cbn [fbytes]; rewrite B1, Np; apply ow_app; exact Hfirst|]. split.
      { exists (n + nv). rewrite P6, B2. unfold afterT. cbn [w_first w_nextf w_totalf w_nextpos w_after w_dsize w_nextv w_totalv w_savedpos w_savednext].
        rewrite !zlen_app. pose proof (zlen_nonneg D). pose proof (zlen_nonneg rl).
        f_equal; try lia. destruct (Z.eqb_spec (zlen rl) 0), (Z.eqb_spec (zlen D) 0), (Z.eqb_spec (zlen D + zlen rl) 0); lia. }
      split; [exact P4|]. split; [apply Forall_app; auto|]. split; [exact A3|].
      exists (k + m)%nat. split; [rewrite zlen_app; lia|]. split; [|split; [rewrite zlen_app; lia|split; [apply zlen_repeat; lia|]]].
      * rewrite (blk_app k m) by (try exact K1; lia). rewrite encRun_app, K2. cbn [rbind]. rewrite P2. reflexivity.
      * apply Forall_forall. intros x Hx. apply repeat_spec in Hx. now subst.
    + exists [], pl. cbn [app map]. split; [apply app_nil_r|]. split; [constructor|]. split; [exact A3|]. split.
      { exists O, []. cbn [ws_file ws_track ws_enc bE bB bT blk encRun]. change (zlen (@nil (option frame))) with 0. change (zlen (@nil Z)) with 0. rewrite ow_nil.
        split; [lia|]. split; [reflexivity|]. split; [lia|]. split; [exact P4|]. split.
        - rewrite P5, P6. cbn [fbytes fpos afterT w_nextpos]. f_equal. lia.
        - unfold afterT. rewrite Z.eqb_refl. destruct (ws_track w). cbn. f_equal; lia. }
      cbn [ws_reb ws_out]. split; [exact HW|]. split; [exact Pd|]. split; [rewrite zlen_repeat by lia; lia|].
      cbn [lastb]. f_equal. unfold zfirstn, zrepeat. rewrite Ert by lia. clear. induction (Z.to_nat fpp) as [|j IHj]; cbn; [reflexivity|now rewrite IHj].
    + rewrite El, A1, app_nil_r, <- app_assoc. reflexivity.
    + rewrite P6. cbn [afterT w_nextv]. lia.
    + rewrite P6. cbn [afterT w_totalv]. lia.
Qed.

Lemma write_wsinv w l samples : wsinv w l -> Forall okF samples ->
  exists w', afWriteFrames c (fun x => x) junk true w samples = Ok (zlen samples, w') /\ wsinv w' (l ++ samples).
Proof.
  intros (b & D & d & l' & nv & Bd & I & El & Fl & N1 & N2) Fs. destruct (base_pos _ _ _ Bd) as [_ Np].
  destruct (afWriteFrames_ok c (fun x => x) junk true okF okE Hlaw Hjunk b w l' nv samples Np) as (w' & Ew & I').
  { rewrite (binv_seeked c junk true okF okE Hlaw b w l' nv I). exact I. } { rewrite map_id. exact Fs. }
  rewrite map_id in I'. exists w'. split; [exact Ew|]. exists b, D, d, (l' ++ samples), (nv + zlen samples).
  split; [exact Bd|]. split; [exact I'|]. split; [rewrite El, <- !app_assoc; reflexivity|]. split; [apply Forall_app; auto|]. rewrite !zlen_app. lia.
Qed.

Lemma sync_wsinv w l : wsinv w l ->
  exists pad d w', completes c l pad /\ Forall okF pad /\ audio c junk e0 (l ++ pad) = Ok d /\ afSyncFile c junk true upd w = Ok w' /\
    ws_track w' = finalTrack c first l d (zlen l) /\ ws_file w' = upd (mkFile (overwrite hdr first d) (first + zlen d)) (ws_track w').
Proof.
  intros W. pose proof W as (b & D & d & l' & nv & Bd & I & El & Fl & N1 & N2). destruct (base_pos _ _ _ Bd) as [Np Np0].
  pose proof (binv_pos c junk okF okE Hlaw b w l' nv I) as Hpos. pose proof Hlaw as HL.
  pose proof Bd as (B1 & [n B2] & B3 & B4 & B5 & B6).
  destruct (match c as c0 return c = c0 -> _ with WPerFrame p bpf enc => fun e => or_introl (ex_intro _ p (ex_intro _ bpf (ex_intro _ enc e))) | WBlocks _ _ _ => fun e => or_intror (ex_intro _ _ (ex_intro _ _ (ex_intro _ _ e))) end eq_refl
    : (exists p bpf enc, c = WPerFrame p bpf enc) \/ (exists fpp bpp encB, c = WBlocks fpp bpp encB)) as [(p & bpf & enc & Ec)|(fpp & bpp & encB & Ec)].
  - rewrite Ec in B6. destruct B6 as (-> & -> & Bp). rewrite Bp in El. cbn [app] in El. subst l'.
    unfold WriterProofs.binv in I. rewrite Ec in I. destruct I as (If & Il & It).
    exists [], (concat (map enc l)). rewrite app_nil_r. change (zlen (@nil frame)) with 0 in *. change (zlen (@nil Z)) with 0 in *. rewrite ow_nil in B1.
    unfold afSyncFile, modulesSync, fileSync1, fileSync2. rewrite Ec. unfold ftell, rassert. rewrite Hpos. cbn [w_nextpos]. rewrite Z.eqb_refl, orb_true_r. cbn [rbind].
    eexists. split; [reflexivity|]. split; [constructor|]. split; [reflexivity|]. split; [reflexivity|].
    unfold wsetFile, wsetTrack. cbn [ws_track ws_file]. unfold finalTrack. rewrite If, It, B1, B2. unfold afterT, inInt.
    cbn [w_first w_nextf w_totalf w_nextpos w_after w_dsize w_nextv w_totalv w_savedpos w_savednext].
    assert (Et : (if zlen l =? 0 then 0 else 0 + 0 + zlen l) = zlen l) by (destruct (Z.eqb_spec (zlen l) 0); lia).
    rewrite B2 in N1, N2. cbn [afterT w_nextv w_totalv] in N1, N2.
    replace (first + 0 + zlen (concat (map enc l))) with (first + zlen (concat (map enc l))) by lia. rewrite !(Z.add_0_r first). split; [|reflexivity].
    rewrite Z.eqb_refl, Et. replace (0 + n + nv) with (zlen l) by lia. rewrite !Z.add_0_l, ?Z.add_0_r. destruct p; reflexivity.
  - rewrite Ec in B6. destruct B6 as (k & K1 & K2 & K3 & K4 & K5).
    destruct (modulesSync_ok c junk true okF okE Hlaw b w l' nv Np0) as (w2 & E2 & S2); auto.
    { rewrite Ec. exact K4. } { unfold fitsInt. rewrite Ec. exact Logic.I. }
    unfold synced in S2. rewrite Ec in S2, HL. destruct HL as (L1 & L2 & Henc).
    destruct S2 as (rl & pl & m & d' & e & dp & A1 & Fr & Fp & Lr & Lp & R1 & R2 & Oe & Ld & Ldp & Ef & Et & _).
    pose (pad := match pl with [] => [] | _ => zskipn (zlen pl) (lastb fpp rl (bPrev b)) end).
    assert (Lb : zlen (lastb fpp rl (bPrev b)) = fpp) by (eapply lastb_len; eauto).
    assert (Lpl : zlen l = fpp * Z.of_nat (k + m) + zlen pl) by (rewrite El, A1, !zlen_app; lia).
    assert (Hpad : pl = [] /\ pad = [] \/ pl <> [] /\ zlen pl + zlen pad = fpp).
    { unfold pad. destruct pl as [|x pl]; [left; auto|right]. split; [discriminate|]. pose proof (zlen_nonneg (x :: pl)). rewrite zlen_skipn by lia. lia. }
    exists pad, (d ++ d' ++ dp). eexists.
    assert (EA : audio c junk e0 (l ++ pad) = Ok (d ++ d' ++ dp)).
    { unfold audio. rewrite Ec.
      assert (Es : exists j, zlen (pl ++ pad) = fpp * Z.of_nat j /\ blk j fpp (pl ++ pad) = partBlock fpp b rl pl).
      { unfold partBlock. destruct Hpad as [[-> ->]|[Hne Hs]].
        - exists O. split; [change (zlen (@nil frame ++ [])) with 0; lia|reflexivity].
        - exists 1%nat. rewrite zlen_app. split; [lia|]. cbn [blk]. rewrite zfirstn_all by (rewrite zlen_app; lia). unfold pad. destruct pl; [congruence|reflexivity]. }
      destruct Es as (j & J1 & J2).
      replace (l ++ pad) with (((D ++ rl) ++ (pl ++ pad)) ++ []) by (rewrite El, A1, app_nil_r, <- !app_assoc; reflexivity).
      rewrite (cut_blocks fpp L1 (k + m + j)); [|apply zlen_repeat; lia|rewrite !zlen_app in *; lia|change (zlen (@nil frame)) with 0; lia|rewrite !app_length; lia].
      rewrite app_nil_r. rewrite <- encRun_all. rewrite (blk_app (k + m) j) by (try lia; rewrite zlen_app; lia). rewrite (blk_app k m) by (try exact K1; lia).
      rewrite !encRun_app, K2. cbn [rbind]. rewrite R1. cbn [rbind]. rewrite J2, R2. cbn [rbind rmap fst]. rewrite <- app_assoc. reflexivity. }
    split.
    { unfold completes. rewrite Ec. destruct Hpad as [[-> ->]|[Hne Hs]].
      - change (zlen (@nil frame)) with 0 in *. split; [lia|]. rewrite Lpl. replace (fpp * Z.of_nat (k + m) + 0 + 0) with (Z.of_nat (k + m) * fpp) by lia. apply Z_mod_mult.
      - assert (0 < zlen pl) by (destruct pl; [congruence|rewrite zlen_cons; pose proof (zlen_nonneg pl); lia]). split; [lia|]. replace (zlen l + zlen pad) with ((Z.of_nat (k + m) + 1) * fpp) by lia. apply Z_mod_mult. }
    split.
    { unfold pad. destruct pl; [constructor|]. apply Forall_skipn. unfold lastb. destruct rl; [exact K5|apply Forall_skipn; exact Fr]. }
    split; [exact EA|]. unfold afSyncFile. rewrite E2. cbn [rbind]. split; [reflexivity|].
    unfold wsetFile. cbn [ws_track ws_file]. rewrite Ef, Et, B1, Np. rewrite ow_app by exact Hfirst.
    assert (Hm : Z.of_nat (k + m) = zlen l / fpp).
    { rewrite Lpl. rewrite Z.mul_comm, Z.div_add_l by lia. rewrite Z.div_small by (pose proof (zlen_nonneg pl); lia). lia. }
    assert (Q : forall t, t = finalTrack c first l (d ++ d' ++ dp) (zlen l) -> t = finalTrack c first l (d ++ d' ++ dp) (zlen l) /\ upd (mkFile (overwrite hdr first (d ++ d' ++ dp)) (first + zlen d + zlen (d' ++ dp))) t = upd (mkFile (overwrite hdr first (d ++ d' ++ dp)) (first + zlen (d ++ d' ++ dp))) t).
    { intros t Ht. split; [exact Ht|]. do 2 f_equal. rewrite !zlen_app. lia. }
    apply Q. unfold finalTrack. rewrite Ec. rewrite <- Hm. rewrite B2 in N1, N2 |- *. unfold afterT in *. cbn [w_first w_nextf w_totalf w_nextpos w_after w_dsize w_nextv w_totalv w_savedpos w_savednext] in *.
    rewrite !zlen_app in *. f_equal; lia.
Qed.

Definition yinv (st : ystate E) (s : settings) (l : list frame) (marked late : bool) : Prop :=
  yagree st s /\ wsinv (y_ws st) l /\ y_dirty st = marked /\
  (marked = false -> late = false -> arrange wrapv host false (g_user s) (g_file s) (g_matrix s) = Ok (Some (y_chain st))).

Lemma yrefresh_ok st s l marked late : yinv st s l marked late -> storable wrapv host s -> wholeRate rate (zlen l) ->
  exists st', yrefresh wrapv host cap st = Ok (Some st') /\ yinv st' s l false (late && negb marked).
Proof.
  intros (A & W & Dy & I) [ms M] R. unfold yrefresh. rewrite Dy. destruct marked.
  - destruct (wsinv_track _ _ W) as [T1 T2]. unfold ysetup. pose proof A as [A1 A2 A3 A4 A5 A6]. rewrite A1, A2, A3, A4, A5, A6, M, T1.
    rewrite (scaleFrame_whole _ _ (zlen_nonneg l) R). cbn [rbind]. rewrite (scaleTrunc_whole _ _ (zlen_nonneg l) R). cbn [rbind].
    rewrite (setCounts_same _ _ T1 T2). eexists. split; [reflexivity|].
    split; [constructor; cbn; auto|]. split; [apply setup_wsinv; exact W|]. split; [reflexivity|]. intros _ _. exact M.
  - exists st. split; [reflexivity|]. cbn [negb]. rewrite andb_true_r. split; [exact A|]. split; [exact W|]. split; [exact Dy|exact I].
Qed.

Lemma yrun_ok ops : forall st s l marked late new, yinv st s l marked late -> wlegal wrapv host rate s marked late ops ->
  stored wrapv host s ops = Ok new -> Forall okF new -> wholeRate rate (zlen (l ++ new)) ->
  exists st' marked' late', yrun wrapv host c junk true upd cap st ops = Ok (answers s (zlen l) ops, st') /\ yinv st' (fold_left (fun s o => match o with YCall o => apply s o | _ => s end) ops s) (l ++ new) marked' late' /\
    storable wrapv host (fold_left (fun s o => match o with YCall o => apply s o | _ => s end) ops s).
Proof.
  induction ops as [|o ops IH]; intros st s l marked late new V L St Fn R.
  { cbn [stored] in St. injection St as <-. rewrite app_nil_r. exists st, marked, late. split; [reflexivity|]. split; [exact V|exact L]. }
  assert (Rl : wholeRate rate (zlen l)) by (eapply wholeRate_less; [|exact R]; rewrite zlen_app; pose proof (zlen_nonneg l); pose proof (zlen_nonneg new); lia).
  assert (Step : forall st1 s1 m1 l1 r, ystep wrapv host c junk true upd cap st o = Ok (r, st1) -> yinv st1 s1 l m1 l1 -> wlegal wrapv host rate s1 m1 l1 ops ->
    stored wrapv host s1 ops = Ok new -> (match o with YCall o => apply s o | _ => s end) = s1 -> answers s (zlen l) (o :: ops) = r :: answers s1 (zlen l) ops ->
    exists st' marked' late', yrun wrapv host c junk true upd cap st (o :: ops) = Ok (answers s (zlen l) (o :: ops), st') /\ yinv st' (fold_left (fun s o => match o with YCall o => apply s o | _ => s end) (o :: ops) s) (l ++ new) marked' late' /\
    storable wrapv host (fold_left (fun s o => match o with YCall o => apply s o | _ => s end) (o :: ops) s)).
  { intros st1 s1 m1 l1 r Es V1 L1 S1 Ea Er. destruct (IH st1 s1 l m1 l1 new V1 L1 S1 Fn R) as (st' & m' & l' & Ey & V' & S'). exists st', m', l'. cbn [yrun fold_left]. rewrite Es, Er. cbn [rbind]. rewrite Ey. cbn [rbind]. rewrite Ea. auto. }
  assert (Mark : forall s' v' f' m' late', g_file s' = f' -> g_user s' = v' -> g_matrix s' = m' -> compressed v' = false -> yinv (ydirtyWith st f' v' (y_vrate st) m') s' l true late').
  { intros s' v' f' m' late' <- <- <- Cv. destruct V as ([] & W & _). split; [constructor; try assumption; reflexivity|]. split; [exact W|]. split; [reflexivity|discriminate]. }
  assert (Cu : compressed (g_user s) = false) by (destruct V as ([] & _); assumption).
  assert (Au : y_user st = g_user s /\ y_file st = g_file s /\ y_matrix st = g_matrix s /\ y_vrate st = rate) by (destruct V as ([] & _); auto). destruct Au as (Au & Af & Am & Ar).
  destruct o as [samples| |o]; cbn [wlegal] in L; [|contradiction|].
  - destruct L as (C & Q & L). cbn [stored] in St. destruct (rmapM (into wrapv host s) samples) as [a| | |] eqn:Ea; try discriminate. cbn [rbind] in St.
    destruct (stored wrapv host s ops) as [b| | |] eqn:Eb; try discriminate. cbn [rbind] in St. assert (new = a ++ b) as -> by congruence. clear St.
    apply Forall_app in Fn. destruct Fn as [Fa Fb].
    destruct (yrefresh_ok _ _ _ _ _ V C Rl) as (st1 & E1 & A1 & W1 & D1 & M1).
    assert (Ml : late && negb marked = false) by (destruct Q as [-> | ->]; [apply andb_false_r|reflexivity]). specialize (M1 eq_refl Ml).
    assert (Ei : rmapM (runChain (y_chain st1)) samples = Ok a) by (rewrite <- Ea; unfold into; rewrite M1; reflexivity).
    destruct (write_wsinv _ _ a W1 Fa) as (w' & Ew & W').
    assert (Ll : zlen a = zlen samples) by exact (rmapM_zlen _ _ _ Ei).
    destruct (IH (onWS st1 w') s (l ++ a) false false b) as (st' & m' & l' & Ey & V' & S'); auto.
    { split; [destruct A1; constructor; assumption|]. split; [exact W'|]. split; [exact D1|]. intros _ _. exact M1. }
    { rewrite <- app_assoc. exact R. }
    exists st', m', l'. cbn [yrun ystep fold_left answers]. unfold yWrite. rewrite E1. cbn [rbind]. rewrite Ei. cbn [rbind]. rewrite Ew. cbn [rbind]. rewrite zlen_app, Ll in Ey. rewrite Ey. cbn [rbind]. rewrite Ll.
    split; [reflexivity|]. split; [|exact S']. rewrite <- app_assoc in V'. exact V'.
  - cbn [stored] in St. destruct o as [n|k| | |o|sf w|n|r|p|p|m].
    + eapply Step; try reflexivity; eauto.
    + eapply Step; try reflexivity; eauto.
    + eapply Step; try reflexivity; eauto.
    + destruct L as (C & L). destruct (yrefresh_ok _ _ _ _ _ V C Rl) as (st1 & E1 & V1). eapply (Step st1); try reflexivity; eauto.
      cbn [ystep ycall]. unfold yFrameCount. rewrite E1. cbn [rbind]. destruct V1 as (_ & W1 & _). destruct (wsinv_track _ _ W1) as [_ ->]. reflexivity.
    + eapply Step; try reflexivity; eauto. apply Mark; cbn; rewrite ?Au, ?Af, ?Am; try reflexivity. exact Cu.
    + cbn [ystep ycall] in Step. rewrite Au in Step. cbn [apply] in *. destruct (setSampleFormat (g_user s) sf w) as [v|] eqn:Ev.
      * eapply Step; try reflexivity; eauto; [|cbn [answers apply]; rewrite Ev; reflexivity]. apply Mark; cbn [g_file g_user g_matrix]; rewrite ?Af, ?Am; try reflexivity.
        unfold setSampleFormat in Ev. destruct sf; repeat match type of Ev with
          | (if ?b then _ else _) = _ => destruct b; [discriminate|]
          | context [match ?x with _ => _ end] => destruct x
          end; injection Ev as <-; exact Cu.
      * eapply (Step st s marked late); try reflexivity; eauto. cbn [answers apply]. rewrite Ev. reflexivity.
    + eapply Step; try reflexivity; eauto. apply Mark; cbn; rewrite ?Au, ?Af, ?Am; try reflexivity. exact Cu.
    + destruct L as [-> L]. cbn [apply] in *. cbn [ystep ycall] in Step. destruct Rl as (z & Ez & Hz & _ & Hz').
      assert (Hn : SFltb rate (S754_zero false) = false) by (rewrite Ez; destruct (dOfZ_normal53 z (conj Hz Hz')) as (m & e & -> & _); reflexivity). rewrite Hn in Step.
      eapply (Step (ydirtyWith st (y_file st) (y_user st) rate (y_matrix st)) s true late); try reflexivity; eauto. rewrite <- Ar. apply Mark; try (symmetry; assumption). rewrite Au. exact Cu.
    + eapply Step; try reflexivity; eauto. apply Mark; cbn; rewrite ?Au, ?Af, ?Am; try reflexivity. exact Cu.
    + eapply Step; try reflexivity; eauto. apply Mark; cbn; rewrite ?Au, ?Af, ?Am; try reflexivity. exact Cu.
    + destruct V as ([] & W & Dy & M). destruct m as [m|].
      * destruct L as (L1 & L2 & L). cbn [ystep ycall] in Step. rewrite Au, Af in Step. replace (channelCount (g_user s) * channelCount (g_file s) <=? zlen m) with true in Step by lia. rewrite L2 in Step. cbn [andb] in Step.
        eapply Step; try reflexivity; eauto. split; [constructor; cbn; auto|]. split; [exact W|]. split; [exact Dy|]. intros Hm Hl. rewrite Hm, orb_true_r in Hl. discriminate.
      * eapply Step; try reflexivity; eauto. split; [constructor; cbn; auto|]. split; [exact W|]. split; [exact Dy|]. intros Hm Hl. rewrite Hm, orb_true_r in Hl. discriminate.
Qed.

Lemma open_wsinv : wsinv (openWrite c hdr first cap e0) [].
Proof.
  exists (base0 c junk hdr first e0), [], [], [], 0. split; [|split; [eapply open_binv; eassumption|]].
  - destruct (base0_prev c junk okF okE Hlaw Hjunk hdr first cap e0 Hcap) as [P1 P2]. unfold based, base0 in *. cbn [bB bT bE bPend bPrev] in *.
    rewrite ow_nil.
    split; [reflexivity|]. split; [exists 0; unfold afterT; cbn; f_equal; lia|]. split; [exact He0|]. split; [constructor|]. split; [constructor|].
    pose proof Hlaw as HL. destruct c; [auto|]. exists O. cbn [blk encRun]. change (zlen (@nil frame)) with 0. change (zlen (@nil Z)) with 0. split; [lia|]. split; [reflexivity|]. split; [lia|]. auto.
  - split; [reflexivity|]. split; [constructor|]. split; reflexivity.
Qed.
End Proofs.

(** ** C70 *)

Lemma yrun_app {B : Build} {E} wrapv host c junk seekok upd cap a : forall (st : ystate E) b,
  yrun wrapv host c junk seekok upd cap st (a ++ b) = do (x, st) <- yrun wrapv host c junk seekok upd cap st a; do (y, st) <- yrun wrapv host c junk seekok upd cap st b; Ok (x ++ y, st).
Proof.
  induction a as [|o a IH]; intros st b; cbn [app yrun rbind].
  - destruct (yrun wrapv host c junk seekok upd cap st b) as [[y st']| | |]; reflexivity.
  - destruct (ystep wrapv host c junk seekok upd cap st o) as [[r st1]| | |]; try reflexivity. cbn [rbind]. rewrite IH. destruct (yrun wrapv host c junk seekok upd cap st1 a) as [[x st2]| | |]; try reflexivity. cbn [rbind].
    destruct (yrun wrapv host c junk seekok upd cap st2 b) as [[y st3]| | |]; reflexivity.
Qed.
Lemma write_history (B : Build) E (c : wcodec frame E) okF okE wrapv host junk upd cap f v rate hdr first e0 ops l :
  lawful c okF okE -> okF junk -> 0 <= first -> okE e0 -> match c with WBlocks fpp _ _ => fpp <= cap | _ => True end -> compressed v = false ->
  wlegal wrapv host rate (ST f v None) true false ops -> stored wrapv host (ST f v None) ops = Ok l -> Forall okF l -> wholeRate rate (zlen l) ->
  exists pad d st, yrun wrapv host c junk true upd cap (yopen c cap f v rate hdr first e0) (ops ++ [YSync]) = Ok (answers (ST f v None) 0 ops ++ [0], st) /\
    completes c l pad /\ Forall okF pad /\ audio c junk e0 (l ++ pad) = Ok d /\
    ws_track (y_ws st) = finalTrack c first l d (zlen l) /\ ws_file (y_ws st) = upd (mkFile (overwrite hdr first d) (first + zlen d)) (ws_track (y_ws st)).
Proof.
  intros HL Hj Hf He Hc Cv L S Fl R.
  destruct (yrun_ok wrapv host c junk upd cap okF okE HL Hj hdr first e0 rate Hf He Hc ops (yopen c cap f v rate hdr first e0) (ST f v None) [] true false l) as (st1 & m & la & E1 & V & C); auto.
  { split; [constructor; auto|]. split; [eapply open_wsinv; eauto|]. split; [reflexivity|discriminate]. }
  cbn [app] in V. change (zlen (@nil frame)) with 0 in E1.
  destruct (yrefresh_ok wrapv host c junk cap okF okE HL Hj hdr first e0 rate Hf He Hc _ _ _ _ _ V C R) as (st2 & E2 & _ & W & _).
  destruct (sync_wsinv c junk upd okF okE HL hdr first e0 Hf _ _ W) as (pad & d & w & P1 & P2 & P3 & P4 & P5 & P6).
  exists pad, d, (onWS st2 w). split; [|auto].
  rewrite yrun_app, E1. cbn [rbind yrun ystep]. unfold ySync. rewrite E2. cbn [rbind]. rewrite P4. reflexivity.
Qed.

(** Whatever the caller sets between the writes, every write returns the number of frames passed, afGetFrameCount the number
    written so far, and the file contains, after the header, the encoding of all frames, each converted by the settings in
    force when it was passed; the header is updated with the number of frames and bytes.  [pad] completes the last block. *)
Theorem C70_file_holds_what_was_written :
  forall (B : Build) E c okF okE, library E c okF okE ->
  forall wrapv host junk upd cap f v rate hdr first e0 ops l,
    okF (map val junk) -> 0 <= first -> okE e0 -> room c cap -> compressed v = false ->
    wlegal wrapv host rate (ST f v None) true false ops -> stored wrapv host (ST f v None) ops = Ok l -> Forall okF (map (map val) l) -> wholeRate rate (zlen l) ->
    exists pad d st t,
      yrun wrapv host (liftW c) junk true upd cap (yopen (liftW c) cap f v rate hdr first e0) (ops ++ [YSync]) = Ok (answers (ST f v None) 0 ops ++ [0], st) /\
      completes c l pad /\ audio c (map val junk) e0 (map (map val) (l ++ pad)) = Ok d /\
      ws_file (y_ws st) = upd (mkFile (overwrite hdr first d) (first + zlen d)) t /\
      w_first t = first /\ w_totalf t = zlen l /\ w_totalv t = zlen l /\ w_dsize t = zlen d /\ w_after t = first + zlen d.
Proof.
  intros B E c okF okE HL wrapv host junk upd cap f v rate hdr first e0 ops l Hj Hf He Hc Cv L S Fl R.
  destruct (write_history B E (liftW c) (fun fr => okF (map val fr)) okE wrapv host junk upd cap f v rate hdr first e0 ops l) as (pad & d & st & Y & P1 & _ & P3 & P5 & P6); auto.
  { apply lawful_lift, library_lawful, HL. } { unfold room in Hc. destruct c; exact Hc. } { rewrite Forall_map in Fl. exact Fl. }
  exists pad, d, st, (ws_track (y_ws st)). split; [exact Y|]. split; [destruct c; exact P1|]. split; [rewrite <- audio_lift; exact P3|]. split; [exact P6|].
  rewrite P5. destruct c; cbn; auto 10.
Qed.
Print Assumptions C70_file_holds_what_was_written.

(** When the frames fill the last block, the file is the one a program makes that converts the frames itself and writes them
    all in one call. *)
Theorem C70_same_file_as_one_write :
  forall (B : Build) E c okF okE, library E c okF okE ->
  forall wrapv host junk upd cap f v rate hdr first e0 ops l,
    okF (map val junk) -> 0 <= first -> okE e0 -> room c cap -> compressed v = false ->
    wlegal wrapv host rate (ST f v None) true false ops -> stored wrapv host (ST f v None) ops = Ok l -> Forall okF (map (map val) l) -> wholeRate rate (zlen l) ->
    match c with WPerFrame _ _ _ => True | WBlocks fpp _ _ => zlen l mod fpp = 0 end ->
    exists st st',
      yrun wrapv host (liftW c) junk true upd cap (yopen (liftW c) cap f v rate hdr first e0) (ops ++ [YSync]) = Ok (answers (ST f v None) 0 ops ++ [0], st) /\
      wrun c (fun x => x) (map val junk) true upd (openWrite c hdr first cap e0) [Write (map (map val) l); Sync] = Ok st' /\
      ws_file (y_ws st) = ws_file st' /\ ws_track (y_ws st) = ws_track st'.
Proof.
  intros B E c okF okE HL wrapv host junk upd cap f v rate hdr first e0 ops l Hj Hf He Hc Cv L S Fl R Hm. pose proof (library_lawful _ _ _ _ HL) as Hlaw.
  destruct (write_history B E (liftW c) (fun fr => okF (map val fr)) okE wrapv host junk upd cap f v rate hdr first e0 ops l) as (pad & d & st & Y & P1 & _ & P3 & P5 & P6); auto.
  { apply lawful_lift, Hlaw. } { unfold room in Hc. destruct c; exact Hc. } { rewrite Forall_map in Fl. exact Fl. }
  assert (pad = []) as ->.
  { destruct c as [|fpp bpp encB]; [exact P1|]. destruct P1 as [P1 P2]. destruct Hlaw as (L1 & _). rewrite Z.add_mod, Hm, Z.add_0_l, Z.mod_mod in P2 by lia. pose proof (zlen_nonneg pad). rewrite Z.mod_small in P2 by lia. destruct pad; [reflexivity|]. rewrite zlen_cons in P2. pose proof (zlen_nonneg pad). lia. }
  rewrite app_nil_r, audio_lift in P3.
  destruct (writes_sync c (fun x => x) (map val junk) upd okF okE Hlaw Hj hdr first cap e0 Hf He Hc [map (map val) l]) as (d' & st' & A & Ru & T & Fi).
  { cbn [concat]. rewrite app_nil_r, map_id. exact Fl. }
  cbn [concat map] in A, Ru, T, Fi. rewrite app_nil_r, map_id in A, T, Fi. rewrite P3 in A. assert (d' = d) as -> by congruence.
  assert (Tr : ws_track (y_ws st) = ws_track st'). { rewrite P5, T. unfold finalTrack. destruct c; cbn [liftW]; rewrite !zlen_map; reflexivity. }
  exists st, st'. split; [exact Y|]. split; [exact Ru|]. split; [rewrite P6, Fi, <- T, <- Tr; reflexivity|exact Tr].
Qed.
Print Assumptions C70_same_file_as_one_write.

(** ** Concrete cases: a stereo 16-bit file at 44100 Hz, written with mono, 32-bit and floating-point frames *)
Definition exCW : wcodec (list Z) unit := pcmW LittleEndian 2 2.
Definition exOps : list yop :=
  [YWrite [[SI kInt16 1; SI kInt16 (-2)]]; YCall (SetChannels 1); YWrite [[SI kInt16 5]; [SI kInt16 6]]; YCall VFrameCount;
   YCall (SetChannels 2); YCall (SetSampleFormat TWOSCOMP 32); YCall (SetMatrix None); YWrite [[SI kInt32 (7 * 65536); SI kInt32 (8 * 65536 + 9)]];
   YCall (SetSampleFormat FLOAT 0); YCall (SetMapping floatMapping); YWrite [[SF (fOfZ 1); SF (SFdiv 24 128 (fOfZ (-1)) (fOfZ 2))]]; YCall VTell; YCall (SetRate (hz 44100)); YWrite []].
Example C70_example :
  wlegal true LittleEndian (hz 44100) (ST exStereo exStereo None) true false exOps /\
  (exists l, stored true LittleEndian (ST exStereo exStereo None) exOps = Ok l /\ map (map val) l = [[1; -2]; [5; 5]; [6; 6]; [7; 8]; [32767; -16384]] /\ Forall (frameOf 2 (fun _ => True)) (map (map val) l)) /\
  answers (ST exStereo exStereo None) 0 exOps = [1; 0; 2; 3; 0; 0; 0; 1; 0; 0; 1; -1; 0; 0] /\ wholeRate (hz 44100) 5.
Proof.
  split; [|split; [|split]].
  - cbn [wlegal exOps]. repeat match goal with
    | |- _ /\ _ => split
    | |- storable _ _ _ => eexists; vm_compute; reflexivity
    end; first [left; reflexivity|right; reflexivity|reflexivity].
  - eexists. split; [vm_compute; reflexivity|]. split; [vm_compute; reflexivity|]. vm_compute. repeat constructor.
  - vm_compute. reflexivity.
  - exists 44100. repeat split; vm_compute; congruence.
Qed.

(** The whole run on a file whose header is two bytes, with an update that records nothing. *)
Example C70_run (B : Build) : exists st,
  yrun true LittleEndian (liftW exCW) [] true (fun f _ => f) 1024 (yopen (liftW exCW) 1024 exStereo exStereo (hz 44100) [77; 78] 2 tt) (exOps ++ [YSync]) = Ok ([1; 0; 2; 3; 0; 0; 0; 1; 0; 0; 1; -1; 0; 0; 0], st) /\
  fbytes (ws_file (y_ws st)) = [77; 78; 1; 0; 254; 255; 5; 0; 5; 0; 6; 0; 6; 0; 7; 0; 8; 0; 255; 127; 0; 192].
Proof. eexists. split; [lazy; reflexivity|vm_compute; reflexivity]. Qed.

(** A block codec: 66 frames, a change of the virtual byte order, 4 frames more.  The second block has 6 frames and is completed with
    what the new buffer happens to hold. *)
Definition exMono : format := {| sampleFormat := TWOSCOMP; sampleWidth := 16; channelCount := 1; byteOrder := BigEndian; compressed := true; pcm := signedMapping kInt16 |}.
Definition exMonoV : format := {| sampleFormat := TWOSCOMP; sampleWidth := 16; channelCount := 1; byteOrder := LittleEndian; compressed := false; pcm := signedMapping kInt16 |}.
Definition mono (k n : nat) : list frame := map (fun i => [SI kInt16 (Z.of_nat i * 50)]) (seq k n).
Definition exBlockOps : list yop := [YWrite (mono 0 66); YCall (SetByteOrder BigEndian); YWrite (mono 66 4)].
Example C70_block_example :
  wlegal true LittleEndian (hz 8000) (ST exMono exMonoV None) true false exBlockOps /\
  stored true LittleEndian (ST exMono exMonoV None) exBlockOps = Ok (mono 0 70) /\ Forall (frameOf 1 (fun _ => True)) (map (map val) (mono 0 70)) /\
  wholeRate (hz 8000) 70 /\ room (imaQTW 1) 1024 /\ completes (imaQTW 1) (mono 0 70) (repeat [SI kInt16 3] 58) /\
  forall B : Build, exists d st,
    yrun true LittleEndian (liftW (imaQTW 1)) [SI kInt16 3] true (fun f _ => f) 1024 (yopen (liftW (imaQTW 1)) 1024 exMono exMonoV (hz 8000) [] 0 [initState]) (exBlockOps ++ [YSync]) = Ok ([66; 0; 4; 0], st) /\
    audio (imaQTW 1) [3] [initState] (map (map val) (mono 0 70 ++ repeat [SI kInt16 3] 58)) = Ok d /\ fbytes (ws_file (y_ws st)) = d /\ zlen d = 68.
Proof.
  split; [|split; [vm_compute; reflexivity|split; [vm_compute; repeat constructor|split; [exists 8000; repeat split; vm_compute; congruence|split; [vm_compute; congruence|split; [vm_compute; split; congruence|]]]]]].
  - cbn [wlegal exBlockOps]. repeat match goal with
    | |- _ /\ _ => split
    | |- storable _ _ _ => eexists; vm_compute; reflexivity
    end; first [left; reflexivity|right; reflexivity|reflexivity].
  - intros B. do 2 eexists. split; [destruct B; vm_compute; reflexivity|]. split; [vm_compute; reflexivity|]. split; vm_compute; reflexivity.
Qed.

(** A rate that is not a whole number: 22254.54... Hz, the rate of early Macintosh sounds.  Seven frames are written; after any
    change of the virtual format the library reports six.  The file itself is not affected. *)
Definition macRate : spec_float := S754_finite false 6117282874535564 (-38).
Definition sevenFrames : list frame := repeat [SI kInt16 1; SI kInt16 2] 7.
Theorem C70_frame_count_refuted :
  forall B : Build, exists st,
    usualRate macRate /\
    yrun true LittleEndian (liftW exCW) [] true (fun f _ => f) 1024 (yopen (liftW exCW) 1024 exStereo exStereo macRate [] 0 tt) [YWrite sevenFrames; YCall VFrameCount; YCall (SetByteOrder LittleEndian); YCall VFrameCount; YSync]
      = Ok ([7; 7; 0; 6; 0], st) /\ zlen (fbytes (ws_file (y_ws st))) = 28 /\ w_totalf (ws_track (y_ws st)) = 7.
Proof. intros B. eexists. split; [vm_compute; repeat split; congruence|]. split; [destruct B; vm_compute; reflexivity|]. split; vm_compute; reflexivity. Qed.
Print Assumptions C70_frame_count_refuted.

(** A matrix set between two writes is not used either: mono frames meant for the right channel go to the left. *)
Theorem C70_late_matrix_refuted :
  forall B : Build, exists left right st,
    yrun true LittleEndian (liftW exCW) [] true (fun f _ => f) 1024 (yopen (liftW exCW) 1024 exStereo exStereo (hz 44100) [] 0 tt)
      [YCall (SetChannels 1); YCall (SetMatrix (Some left)); YWrite [[SI kInt16 5]]; YCall (SetMatrix (Some right)); YWrite [[SI kInt16 6]]; YSync] = Ok ([0; 0; 1; 0; 1; 0], st) /\
    fbytes (ws_file (y_ws st)) = [5; 0; 0; 0; 6; 0; 0; 0] /\
    stored true LittleEndian (ST exStereo exStereo None) [YCall (SetChannels 1); YCall (SetMatrix (Some left)); YWrite [[SI kInt16 5]]; YCall (SetMatrix (Some right)); YWrite [[SI kInt16 6]]]
      = Ok [[SI kInt16 5; SI kInt16 0]; [SI kInt16 0; SI kInt16 6]].
Proof. intros B. exists [dOfZ 1; dOfZ 0], [dOfZ 0; dOfZ 1]. eexists. split; [destruct B; vm_compute; reflexivity|]. split; vm_compute; reflexivity. Qed.
Print Assumptions C70_late_matrix_refuted.
