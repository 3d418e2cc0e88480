(** * Writing to a disk that may be full: what every call leaves behind *)
From Verif Require Import Prelude PreludeFacts FileIO Rebuffer RebufferProofs Reader ReaderProofs Writer WriterSpec WriterProofs WriterHistory Disk.

Lemma dwrite_cases d f data : 0 <= fpos f -> exists taken rest d', data = taken ++ rest /\
  dwrite d f data = (zlen taken, mkFile (overwrite (fbytes f) (fpos f) taken) (fpos f + zlen taken), d') \/
  (taken = [] /\ rest = data /\ data = taken ++ rest /\ dwrite d f data = (-1, f, d')).
Proof.
  intros Hp. unfold dwrite. destruct d as [|a d].
  - exists data, [], []. left. rewrite app_nil_r. split; reflexivity.
  - destruct (Z.ltb_spec a 0).
    + exists [], data, d. right. repeat split.
    + exists (zfirstn a data), (zskipn a data), d. left. split; [symmetry; apply zfirstn_skipn|reflexivity].
Qed.

(** The file module's write: a prefix is taken, position and data size advance by its length. *)
Definition moved (t : wtrack) (n : Z) : wtrack :=
  mkWT (w_first t) (w_nextf t) (w_totalf t) (w_nextpos t + n) (w_after t) (w_dsize t + n) (w_nextv t) (w_totalv t) (w_savedpos t) (w_savednext t).
Lemma fmWriteD_ok d f t data : 0 <= fpos f -> exists n taken rest d', data = taken ++ rest /\
  fmWriteD d f t data = (n, mkFile (overwrite (fbytes f) (fpos f) taken) (fpos f + zlen taken), moved t (zlen taken), d') /\
  (if 0 <=? n then n else 0) = zlen taken /\ (d = [] -> rest = [] /\ d' = []).
Proof.
  intros Hp. destruct d as [|a0 d0].
  { exists (zlen data), data, [], []. unfold fmWriteD, dwrite, fwrite. rewrite app_nil_r. pose proof (zlen_nonneg data). replace (0 <=? zlen data) with true by lia. split; [reflexivity|]. split; [|auto].
    destruct (Z.ltb_spec 0 (zlen data)) as [H1|H1]; [reflexivity|]. replace (zlen data) with 0 by lia. unfold moved. rewrite !Z.add_0_r. destruct t. reflexivity. }
  set (d := a0 :: d0). assert (Hd : d = [] -> False) by discriminate. clearbody d. unfold fmWriteD. destruct (dwrite_cases d f data Hp) as (taken & rest & d' & [(E & ->)|(-> & -> & _ & ->)]).
  - exists (zlen taken), taken, rest, d'. pose proof (zlen_nonneg taken). split; [exact E|].
    replace (0 <=? zlen taken) with true by lia. split; [|split; [reflexivity|tauto]]. destruct (Z.ltb_spec 0 (zlen taken)) as [H1|H1]; [reflexivity|].
    replace (zlen taken) with 0 by lia. unfold moved. rewrite !Z.add_0_r. destruct t. reflexivity.
  - exists (-1), [], data, d'. split; [reflexivity|]. cbn [Z.ltb Z.leb Z.compare]. split; [|split; [reflexivity|tauto]]. change (zlen (@nil Z)) with 0. rewrite ow_nil.
    unfold moved. rewrite !Z.add_0_r. destruct t, f. reflexivity.
Qed.
Lemma fmWriteD_answer d f t data n f' t' d' : fmWriteD d f t data = (n, f', t', d') -> d' = tl d.
Proof.
  unfold fmWriteD, dwrite. destruct d as [|a d]; [intros [= <- <- <- <-]; reflexivity|]. destruct (a <? 0); intros [= <- <- <- <-]; reflexivity.
Qed.

Section Main.
Context {B : Build}.
Context {F V E : Type} (c : wcodec F E) (conv : V -> F) (junk : F) (okF : F -> Prop) (okE : E -> Prop).
Hypothesis Hlaw : lawful c okF okE.
Hypothesis Hjunk : okF junk.

(** What holds of the file and the track between calls, whatever the disk did: the position of the next frame and the size of the data agree. *)
Definition placed (f : file) (t : wtrack) : Prop := fpos f = w_nextpos t /\ 0 <= w_first t /\ 0 <= w_dsize t /\ w_nextpos t = w_first t + w_dsize t.
Definition rebOK (r : rebuffer F) (out : list (option F)) : Prop := match c with
  | WPerFrame _ _ _ => True
  | WBlocks fpp _ _ => rebW fpp r /\ Forall (goodO okF) (pending r) /\ fpp <= zlen out /\ Forall okF (map (unjunk junk) (zfirstn fpp out))
  end.
Definition sane (st : wstate F E) : Prop := placed (ws_file st) (ws_track st) /\ okE (ws_enc st) /\ rebOK (ws_reb st) (ws_out st).

Lemma perFramePushD_ok p bpf enc f t happy d chunk : c = WPerFrame p bpf enc -> placed f t -> Forall okF chunk ->
  exists taken rest n d', concat (map enc chunk) = taken ++ rest /\
    perFramePushD true bpf enc f t happy d chunk =
      Ok (mkFile (overwrite (fbytes f) (fpos f) taken) (fpos f + zlen taken), advance (moved t (zlen taken)) n, happy && (n =? zlen chunk), d') /\
    n = zlen taken / bpf /\ (d = [] -> rest = [] /\ d' = []).
Proof.
  intros Ec [P1 [P2 [P3 P4]]] Hc. pose proof Hlaw as HL. rewrite Ec in HL. destruct HL as [Hb He]. unfold perFramePushD. replace (bpf <=? 0) with false by lia.
  destruct (fmWriteD_ok d f t (concat (map enc chunk))) as (n & taken & rest & d' & Ed & Ew & En & Em); [lia|].
  exists taken, rest, (zlen taken / bpf), d'. split; [exact Ed|]. rewrite Ew. pose proof (zlen_nonneg taken).
  assert (Eq : (if 0 <=? n then Z.quot n bpf else 0) = zlen taken / bpf).
  { destruct (0 <=? n); [subst n; apply Z.quot_div_nonneg; lia|]. rewrite <- En. now rewrite Z.div_0_l by lia. }
  rewrite Eq. split; [|split; [reflexivity|exact Em]]. unfold rassert, ftell, advance, moved. cbn [fpos w_nextpos negb orb]. rewrite P1, Z.eqb_refl. cbn [rbind]. reflexivity.
Qed.

Lemma blockPushD_ok fpp bpp encB f t e happy d buf n : c = WBlocks fpp bpp encB -> placed f t -> okE e -> 0 <= n ->
  let k := Z.quot (n + fpp - 1) fpp in fpp * k <= zlen buf -> Forall okF (map (unjunk junk) (zfirstn (fpp * k) buf)) ->
  exists data e' taken rest fw d', encRun encB e (blk (Z.to_nat k) fpp (map (unjunk junk) buf)) = Ok (data, e') /\ zlen data = bpp * k /\ okE e' /\ data = taken ++ rest /\
    blockPushD junk fpp bpp encB (f, t, e, happy, d) buf n =
      Ok (mkFile (overwrite (fbytes f) (fpos f) taken) (fpos f + zlen taken), advance (moved t (zlen taken)) fw, e', happy && negb (fw <? n), d') /\
    fw = Z.min (zlen taken / bpp * fpp) n /\ (d = [] -> rest = [] /\ d' = []).
Proof.
  intros Ec [P1 [P2 [P3 P4]]] He Hn k Hk Hok. pose proof Hlaw as HL. rewrite Ec in HL. destruct HL as (B1 & B2 & Henc). unfold blockPushD.
  replace ((fpp <=? 0) || (bpp <=? 0)) with false by lia. fold k.
  assert (Hk0 : 0 <= k). { unfold k. rewrite Z.quot_div_nonneg by lia. apply Z.div_pos; lia. }
  rewrite (encodeLoop_run fpp encB B1 junk) by (rewrite Z2Nat.id by lia; exact Hk).
  set (blocks := blk (Z.to_nat k) fpp (map (unjunk junk) buf)).
  assert (Eb : blocks = blk (Z.to_nat k) fpp (map (unjunk junk) (zfirstn (fpp * k) buf))).
  { unfold blocks. rewrite <- (zfirstn_skipn (fpp * k) buf) at 1. rewrite map_app.
    rewrite <- (Nat.add_0_r (Z.to_nat k)) at 1. rewrite blk_app; [now rewrite app_nil_r|lia|].
    rewrite zlen_map, zlen_firstn by nia. nia. }
  destruct (encRun_ok fpp bpp encB okF okE Henc blocks e He) as (data & e' & E2 & L2 & O2).
  { rewrite Eb. apply blk_forall; [lia|rewrite zlen_map, zlen_firstn by nia; nia|exact Hok]. }
  rewrite E2. cbn [rbind]. unfold blocks in L2. rewrite blk_length, Z2Nat.id in L2 by lia.
  destruct (fmWriteD_ok d f t data) as (w & taken & rest & d' & Ed & Ew & En & Em); [lia|].
  exists data, e', taken, rest, (Z.min (zlen taken / bpp * fpp) n), d'. split; [reflexivity|]. split; [exact L2|]. split; [exact O2|]. split; [exact Ed|].
  rewrite Ew. pose proof (zlen_nonneg taken).
  assert (Eq : (if 0 <=? w then Z.quot w bpp else 0) = zlen taken / bpp).
  { destruct (0 <=? w); [subst w; apply Z.quot_div_nonneg; lia|]. rewrite <- En. now rewrite Z.div_0_l by lia. }
  rewrite Eq. split; [|split; [reflexivity|exact Em]]. unfold rassert, ftell, advance, moved. cbn [fpos w_nextpos]. rewrite P1, Z.eqb_refl. cbn [rbind]. reflexivity.
Qed.

Lemma placed_moved f t taken n : placed f t -> placed (mkFile (overwrite (fbytes f) (fpos f) taken) (fpos f + zlen taken)) (advance (moved t (zlen taken)) n).
Proof.
  intros (P1 & P2 & P3 & P4). pose proof (zlen_nonneg taken). unfold placed, advance, moved. cbn [fpos w_nextpos w_first w_dsize]. lia.
Qed.

(** *** No call goes wrong, whatever the disk does *)
Lemma good_split (a b : list (option F)) : Forall (goodO okF) (a ++ b) <-> Forall (goodO okF) a /\ Forall (goodO okF) b.
Proof. apply Forall_app. Qed.
Lemma good_unjunk l : Forall (goodO okF) l -> Forall okF (map (unjunk junk) l).
Proof. intros H. apply Forall_map. eapply Forall_impl; [|exact H]. intros o (x & -> & Hx). exact Hx. Qed.

Definition blockS (s : file * wtrack * E * bool * disk) (recv : list (option F)) : Prop :=
  let '(f, t, e, _, _) := s in placed f t /\ okE e.
Lemma userPushD_sane s chunk : sane (ds_state s) -> Forall okF (map conv chunk) ->
  exists s', userPushD c conv junk true s chunk = Ok s' /\ sane (ds_state s') /\ w_first (ws_track (ds_state s')) = w_first (ws_track (ds_state s)).
Proof.
  intros (HP & He & HR) Hc. unfold userPushD, sane in *. pose proof perFramePushD_ok as HPF. pose proof blockPushD_ok as HBL. pose proof Hlaw as HL. unfold rebOK in *. destruct c as [isPCM bpf enc|fpp bpp encB] eqn:Ec.
  - destruct (HPF isPCM bpf enc (ws_file (ds_state s)) (ws_track (ds_state s)) (ds_happy s) (ds_disk s) (map conv chunk) eq_refl HP Hc) as (taken & rest & n & d' & _ & E1 & _).
    rewrite E1. cbn [rbind]. eexists. split; [reflexivity|]. cbn [ds_state ws_file ws_track ws_enc ws_reb ws_out]. split; [split; [now apply placed_moved|auto]|reflexivity].
  - destruct HL as (B1 & B2 & _). destruct HR as (HW & HG & Ho & HJ).
    set (P := fun (x : file * wtrack * E * bool * disk) (recv : list (option F)) => blockS x recv /\ (let '(f, t, e, _, _) := x in w_first t = w_first (ws_track (ds_state s)))).
    assert (HT : takes (blockPushD junk fpp bpp encB) P (goodO okF) fpp false).
    { intros [[[[f t] e] happy] d] recv outb n [[HP1 He1] Hf] Hn Hm Hone Hl HG1. specialize (Hone eq_refl). subst n.
      assert (Ek : Z.quot (fpp + fpp - 1) fpp = 1) by (rewrite Z.quot_div_nonneg by lia; symmetry; apply Z.div_unique with (fpp - 1); lia).
      destruct (HBL fpp bpp encB f t e happy d outb fpp eq_refl HP1 He1 ltac:(lia)) as (data & e' & taken & rest & fw & d' & _ & _ & O2 & _ & E1 & _).
      - rewrite Ek. lia.
      - rewrite Ek. rewrite Z.mul_1_r. apply good_unjunk. exact HG1.
      - rewrite E1. eexists. split; [reflexivity|]. split; [split; [now apply placed_moved|exact O2]|exact Hf]. }
    destruct (rebPush_ok (blockPushD junk fpp bpp encB) P (goodO okF) fpp false B1 HT (length chunk) (ws_reb (ds_state s)) (ws_out (ds_state s))
               (ws_file (ds_state s), ws_track (ds_state s), ws_enc (ds_state s), ds_happy s, ds_disk s)
               (map Some (map conv chunk)) []) as (r' & outb' & s' & recv' & E1 & W' & P' & Lo & Eq & Md & Sh); auto.
    { split; [split; auto|reflexivity]. } { now apply goodO_map. } { rewrite !zlen_map. unfold zlen. lia. }
    rewrite E1. cbn [rbind]. destruct s' as [[[[f' t'] e'] h'] d']. destruct P' as [[P1 P2] P3]. eexists. split; [reflexivity|].
    cbn [ds_state ws_file ws_track ws_enc ws_reb ws_out]. split; [|exact P3]. split; [exact P1|]. split; [exact P2|]. split; [exact W'|].
    assert (GA : Forall (goodO okF) (recv' ++ pending r')).
    { rewrite Eq. cbn [app]. apply good_split. split; [exact HG|]. now apply goodO_map. }
    apply good_split in GA. destruct GA as [G1 G2]. split; [exact G2|]. split; [lia|].
    destruct (Sh eq_refl) as [[-> _]|[_ Hst]]; [exact HJ|]. rewrite Hst. apply good_unjunk. apply Forall_skipn. exact G1.
Qed.

Lemma writeLoopD_sane fuel : forall s samples v, sane (ds_state s) -> ds_happy s = true -> Forall okF (map conv samples) -> 0 <= v <= zlen samples -> zlen samples - v < Z.of_nat fuel ->
  exists s' r, writeLoopD c conv junk true fuel s samples v (zlen samples) = Ok (s', r) /\ sane (ds_state s') /\ w_first (ws_track (ds_state s')) = w_first (ws_track (ds_state s)) /\
    v <= r <= zlen samples /\ ds_happy s' = (r =? zlen samples).
Proof.
  induction fuel as [|fuel IH]; intros s samples v HS Hh Hs Hv Hf; [lia|].
  cbn [writeLoopD]. destruct (Z.ltb_spec v (zlen samples)) as [Hlt|Hge]; cbn [negb].
  - set (count := if v <=? zlen samples - ATOMIC then ATOMIC else zlen samples - v).
    assert (Hc : 0 < count <= zlen samples - v) by (unfold count, ATOMIC; destruct (Z.leb_spec v (zlen samples - 1024)); lia).
    clearbody count. rewrite slice_ok by lia. cbn [rbind].
    destruct (userPushD_sane s (zfirstn count (zskipn v samples)) HS) as (s1 & E1 & S1 & F1).
    { rewrite <- (zfirstn_skipn v samples), map_app in Hs. apply Forall_app in Hs. destruct Hs as [_ Hs].
      rewrite <- (zfirstn_skipn count (zskipn v samples)), map_app in Hs. apply Forall_app in Hs. tauto. }
    rewrite E1. cbn [rbind]. destruct (ds_happy s1) eqn:Eh; cbn [negb].
    + destruct (IH s1 samples (v + count) S1 Eh Hs) as (s' & r & E2 & S2 & F2 & R & H2); try lia. exists s', r.
      split; [exact E2|]. split; [exact S2|]. split; [congruence|]. split; [lia|exact H2].
    + exists s1, v. split; [reflexivity|]. split; [exact S1|]. split; [exact F1|]. split; [lia|]. rewrite Eh. symmetry. apply Z.eqb_neq. lia.
  - exists s, v. split; [reflexivity|]. split; [exact HS|]. split; [reflexivity|]. split; [lia|]. rewrite Hh. symmetry. apply Z.eqb_eq. lia.
Qed.

(** Between calls the position in the file does not matter. *)
Definition saneAt (st : wstate F E) : Prop := sane (wseeked true st).
Lemma afWriteFramesD_sane s samples : saneAt (ds_state s) -> Forall okF (map conv samples) ->
  exists r s', afWriteFramesD c conv junk true s samples = Ok (r, s') /\ sane (ds_state s') /\ 0 <= r <= zlen samples /\ ds_happy s' = (r =? zlen samples) /\
    w_first (ws_track (ds_state s')) = w_first (ws_track (ds_state s)).
Proof.
  intros HS Hs. unfold afWriteFramesD. pose proof (zlen_nonneg samples).
  destruct (writeLoopD_sane (Z.to_nat (zlen samples) + 1) (mkDS (wseeked true (ds_state s)) true (ds_disk s)) samples 0 HS eq_refl Hs) as (s1 & r & E1 & S1 & F1 & R & H1); try lia.
  unfold wseeked in E1. rewrite E1. cbn [rbind]. eexists r, _. split; [reflexivity|]. cbn [ds_state ds_happy]. split.
  - destruct S1 as ((P1 & P2 & P3 & P4) & S2 & S3). split; [|auto]. unfold placed, wsetTrack. cbn [ws_file ws_track w_nextpos w_first w_dsize]. auto.
  - split; [lia|]. split; [exact H1|]. exact F1.
Qed.

(** A sync right after a write. *)
Lemma modulesSyncD_sane s : sane (ds_state s) -> exists s', modulesSyncD c junk true s = Ok (true, s') /\
  w_first (ws_track (ds_state s')) = w_first (ws_track (ds_state s)) /\ w_after (ws_track (ds_state s')) = fpos (ws_file (ds_state s')) /\
  w_after (ws_track (ds_state s')) = w_first (ws_track (ds_state s')) + w_dsize (ws_track (ds_state s')) /\
  exists more, ws_file (ds_state s') = mkFile (overwrite (fbytes (ws_file (ds_state s))) (fpos (ws_file (ds_state s))) more) (fpos (ws_file (ds_state s)) + zlen more) /\
    w_dsize (ws_track (ds_state s')) = w_dsize (ws_track (ds_state s)) + zlen more /\
    match c with WPerFrame _ _ _ => more = [] /\ w_totalf (ws_track (ds_state s')) = w_totalf (ws_track (ds_state s)) | _ => True end.
Proof.
  intros (HP & He & HR). pose proof HP as (P1 & P2 & P3 & P4). unfold modulesSyncD, fileSync1, fileSync2. pose proof blockPushD_ok as HBL. pose proof Hlaw as HL. unfold rebOK in HR. destruct c as [isPCM bpf enc|fpp bpp encB] eqn:Ec.
  - unfold rassert, ftell. cbn [w_first w_nextf w_totalf w_nextpos w_after w_dsize w_nextv w_totalv w_savedpos w_savednext negb orb].
    rewrite P1, Z.eqb_refl. cbn [rbind]. eexists. split; [reflexivity|]. unfold wsetTrack. cbn [ds_state ws_file ws_track w_first w_after w_dsize w_totalf].
    split; [reflexivity|]. split; [congruence|]. split; [congruence|]. exists []. change (zlen (@nil Z)) with 0. rewrite ow_nil, !Z.add_0_r.
    split; [rewrite <- P1; destruct (ws_file (ds_state s)); reflexivity|]. auto.
  - destruct HR as ([Wb Wo] & HG & Ho & HJ). destruct HL as (B1 & B2 & _).
    set (r := ws_reb (ds_state s)) in *. set (out := ws_out (ds_state s)) in *.
    unfold rebSync1, offsetOkPush, rassert at 1. replace ((0 <=? r_offset r) && (r_offset r <? fpp)) with true by lia. cbn [rbind].
    unfold rebSync2. cbn [r_offset r_buffer r_saved r_savedOffset r_eof r_sent]. unfold offsetOkPush.
    replace ((0 <=? r_offset r) && (r_offset r <? fpp)) with true by lia. unfold rassert at 1. cbn [rbind].
    rewrite slice_ok by lia. cbn [rbind]. rewrite (zskipn_0 0) by lia. change (zfirstn (r_offset r) (r_buffer r)) with (pending r).
    assert (Lp : zlen (pending r) = r_offset r) by (unfold pending; rewrite zlen_firstn by lia; lia).
    rewrite blit_ok by lia. cbn [rbind]. rewrite Z.add_0_l, (zfirstn_0 0) by lia. cbn [app].
    set (out' := pending r ++ zskipn (zlen (pending r)) out).
    assert (Lo : zlen out' = zlen out) by (unfold out'; rewrite zlen_app, zlen_skipn; lia).
    assert (HJ' : Forall okF (map (unjunk junk) (zfirstn fpp out'))).
    { unfold out'. rewrite zfirstn_app_r by lia. rewrite map_app. apply Forall_app. split; [now apply good_unjunk|].
      rewrite Lp. replace (zfirstn (fpp - r_offset r) (zskipn (r_offset r) out)) with (zskipn (r_offset r) (zfirstn fpp out)).
      - rewrite map_zskipn. apply Forall_skipn. exact HJ.
      - unfold zfirstn, zskipn. rewrite skipn_firstn_comm. f_equal. lia. }
    set (t1 := mkWT (w_first (ws_track (ds_state s))) (w_nextf (ws_track (ds_state s))) (w_totalf (ws_track (ds_state s))) (w_nextpos (ws_track (ds_state s))) (w_after (ws_track (ds_state s)))
       (w_dsize (ws_track (ds_state s))) (w_nextv (ws_track (ds_state s))) (w_totalv (ws_track (ds_state s))) (w_nextpos (ws_track (ds_state s))) (w_nextf (ws_track (ds_state s)))).
    assert (HP1 : placed (ws_file (ds_state s)) t1) by exact HP.
    assert (Hk : 0 <= Z.quot (r_offset r + fpp - 1) fpp <= 1).
    { rewrite Z.quot_div_nonneg by lia. split; [apply Z.div_pos; lia|]. apply Z.lt_succ_r. apply Z.div_lt_upper_bound; lia. }
    assert (Hok : Forall okF (map (unjunk junk) (zfirstn (fpp * Z.quot (r_offset r + fpp - 1) fpp) out'))).
    { assert (Hc : Z.quot (r_offset r + fpp - 1) fpp = 0 \/ Z.quot (r_offset r + fpp - 1) fpp = 1) by lia.
      destruct Hc as [->| ->]; [rewrite Z.mul_0_r, zfirstn_0 by lia; constructor|rewrite Z.mul_1_r; exact HJ']. }
    destruct (HBL fpp bpp encB (ws_file (ds_state s)) t1 (ws_enc (ds_state s)) true (ds_disk s) out' (r_offset r) eq_refl HP1 He ltac:(lia) ltac:(nia) Hok)
      as (data & e' & taken & rest & fw & d' & _ & _ & O2 & _ & E1 & _).
    rewrite E1. cbn [rbind]. unfold rassert at 1. cbn [rbind]. unfold rassert, ftell. cbn [fpos advance moved w_nextpos negb orb].
    assert (EE : fpos (ws_file (ds_state s)) + zlen taken = w_nextpos t1 + zlen taken) by (unfold t1; cbn [w_nextpos]; lia).
    rewrite EE, Z.eqb_refl. cbn [rbind]. eexists. split; [reflexivity|]. cbn [ds_state ws_file ws_track w_first w_after w_dsize fpos advance moved].
    split; [reflexivity|]. split; [reflexivity|]. split; [unfold t1; cbn [w_nextpos w_first w_dsize]; lia|]. exists taken. rewrite EE. split; [reflexivity|]. auto.
Qed.

(** *** What is in the file when an application stops at the first short count *)
Section FromOpen.
Variables (hdr : list Z) (first cap : Z) (e0 : E).
Hypothesis Hfirst : 0 <= first.
Hypothesis He0 : okE e0.
Hypothesis Hcap : match c with WBlocks fpp _ _ => fpp <= cap | _ => True end.
Notation b0 := (base0 c junk hdr first e0).

(** The audio data is [D ++ tail]: [D] belongs to the frames [l0] that were counted, [tail] comes from the chunk [l1] that failed.  For the block codecs
    [D] is the encoding of the whole blocks among [l0]. *)
Definition begins (f : file) (t : wtrack) (l0 l1 : list F) : Prop :=
  exists D tail, f = mkFile (overwrite hdr first (D ++ tail)) (first + zlen (D ++ tail)) /\ w_first t = first /\ w_dsize t = zlen (D ++ tail) /\ w_nextpos t = first + zlen (D ++ tail) /\
    match c with
    | WPerFrame _ bpf enc => D = concat (map enc l0) /\ w_totalf t = zlen (D ++ tail) / bpf /\ w_nextf t = zlen (D ++ tail) / bpf /\ exists rest, concat (map enc l1) = tail ++ rest
    | WBlocks fpp bpp encB => exists rl pl e, l0 = rl ++ pl /\ zlen pl < fpp /\ zlen rl mod fpp = 0 /\
        encRun encB e0 (blk (Z.to_nat (zlen rl / fpp)) fpp rl) = Ok (D, e) /\ zlen D = bpp * (zlen rl / fpp)
    end.

Lemma binv_begins st l nv : Forall okF l -> binv c junk okF okE b0 st l nv -> begins (ws_file st) (ws_track st) l [].
Proof.
  intros Hl. unfold binv, begins, base0. pose proof Hlaw as HL. destruct c as [isPCM bpf enc|fpp bpp encB]; cbn [bB bT bE bPend bPrev].
  - intros (If & Il & It). destruct HL as [Hb He]. exists (concat (map enc l)), []. rewrite app_nil_r. cbn [w_nextpos] in *. rewrite If, It. unfold afterT.
    cbn [w_first w_nextf w_totalf w_nextpos w_after w_dsize]. rewrite Z.add_0_l, Il, Z.mul_comm, Z.div_mul by lia.
    split; [reflexivity|]. split; [reflexivity|]. split; [reflexivity|]. split; [reflexivity|]. split; [reflexivity|].
    split; [destruct (zlen l =? 0) eqn:E0; lia|]. split; [lia|]. exists []. reflexivity.
  - intros (rl & pl & El & Fr & Fp & (m & d & P1 & P2 & P3 & P4 & P5 & P6) & [Wb Wo] & Pd & _). destruct HL as (B1 & B2 & He). cbn [app] in El. exists d, []. rewrite app_nil_r.
    cbn [bB bT bE w_nextpos] in *. rewrite P5, P6. unfold afterT. cbn [w_first w_nextf w_totalf w_nextpos w_after w_dsize]. rewrite Z.add_0_l.
    split; [reflexivity|]. split; [reflexivity|]. split; [reflexivity|]. split; [reflexivity|]. rewrite map_unjunk in P2. rewrite zlen_map in P1.
    exists rl, pl, (ws_enc st). split; [exact El|]. split.
    { rewrite <- (zlen_map (@Some F)), <- Pd. unfold pending. rewrite zlen_firstn by lia. lia. }
    assert (Eq : zlen rl / fpp = Z.of_nat m) by (rewrite P1, Z.mul_comm, Z.div_mul by lia; reflexivity).
    split; [rewrite P1, Z.mul_comm; apply Z.mod_mul; lia|]. rewrite Eq, Nat2Z.id. split; [exact P2|exact P3].
Qed.

Lemma binv_placed st l nv : binv c junk okF okE b0 st l nv -> placed (ws_file st) (ws_track st).
Proof.
  intros HI. pose proof (binv_pos c junk okF okE Hlaw b0 st l nv HI) as Hp. unfold binv, base0 in HI. pose proof Hlaw as HL. destruct c as [isPCM bpf enc|fpp bpp encB]; cbn [bB bT bE bPend bPrev] in HI.
  - destruct HI as (If & Il & It). pose proof (zlen_nonneg (concat (map enc l))). unfold placed. rewrite Hp, It. unfold afterT. cbn [w_first w_nextpos w_dsize]. lia.
  - destruct HI as (rl & pl & El & Fr & Fp & (m & d & P1 & P2 & P3 & P4 & P5 & P6) & _). cbn [bT w_nextpos w_first w_dsize] in *. pose proof (zlen_nonneg d).
    unfold placed. rewrite Hp, P6. unfold afterT. cbn [w_first w_nextpos w_dsize]. lia.
Qed.

(** One chunk. *)
Lemma userPushD_ok s l nv chunk : binv c junk okF okE b0 (ds_state s) l nv -> Forall okF l -> ds_happy s = true -> Forall okF (map conv chunk) -> chunk <> [] ->
  exists s', userPushD c conv junk true s chunk = Ok s' /\
    (if ds_happy s' then binv c junk okF okE b0 (ds_state s') (l ++ map conv chunk) nv
     else begins (ws_file (ds_state s')) (ws_track (ds_state s')) l (map conv chunk)) /\ (ds_disk s = [] -> ds_happy s' = true /\ ds_disk s' = []).
Proof.
  intros HI Hl Hh Hc Hne. pose proof (binv_placed _ _ _ HI) as HP. pose proof (binv_begins _ _ _ Hl HI) as HB0. pose proof HP as (Q1 & Q2 & Q3 & Q4).
  unfold userPushD. rewrite Hh. pose proof perFramePushD_ok as HPF. pose proof blockPushD_ok as HBL. pose proof Hlaw as HL. unfold begins, binv in *.
  assert (Hz : 0 < zlen chunk) by (destruct chunk; [congruence|rewrite zlen_cons; pose proof (zlen_nonneg chunk); lia]).
  destruct c as [isPCM bpf enc|fpp bpp encB] eqn:Ec.
  - destruct HL as [Hb He]. destruct HI as (If & Il & It). cbn [base0 bB bT w_nextpos] in If, It.
    destruct (HPF isPCM bpf enc (ws_file (ds_state s)) (ws_track (ds_state s)) true (ds_disk s) (map conv chunk) eq_refl HP Hc) as (taken & rest & n & d' & Ed & E1 & En & Em).
    rewrite E1. cbn [rbind]. eexists. split; [reflexivity|]. cbn [ds_state ds_happy ds_disk ws_file ws_track andb]. rewrite zlen_map.
    pose proof (concat_enc_len junk okF Hjunk bpf enc _ He Hc) as Ln. rewrite zlen_map in Ln. pose proof (zlen_nonneg taken). pose proof (zlen_nonneg rest). pose proof (zlen_nonneg l).
    assert (Lt : zlen taken + zlen rest = bpf * zlen chunk) by (rewrite <- Ln, Ed, zlen_app; lia).
    assert (Ef : mkFile (overwrite (fbytes (ws_file (ds_state s))) (fpos (ws_file (ds_state s))) taken) (fpos (ws_file (ds_state s)) + zlen taken) =
                 mkFile (overwrite hdr first (concat (map enc l) ++ taken)) (first + zlen (concat (map enc l) ++ taken))).
    { rewrite If. cbn [fbytes fpos]. rewrite ow_app by lia. rewrite zlen_app. f_equal. lia. }
    rewrite Ef. pose proof (Z.div_mod (zlen taken) bpf ltac:(lia)) as DM. pose proof (Z.mod_pos_bound (zlen taken) bpf ltac:(lia)) as MB. rewrite <- En in DM.
    split; [|intros Hd; destruct (Em Hd) as [-> ->]; split; [|reflexivity]; apply Z.eqb_eq; rewrite zlen_nil in Lt; rewrite En; replace (zlen taken) with (zlen chunk * bpf) by lia; apply Z.div_mul; lia].
    destruct (Z.eqb_spec n (zlen chunk)) as [Hn|Hn].
    + assert (rest = []) as ->. { destruct rest; [reflexivity|]. rewrite zlen_cons in *. pose proof (zlen_nonneg rest). nia. }
      rewrite app_nil_r in Ed. cbn [base0 bB bT w_nextpos]. rewrite map_app, concat_app, Ed, !zlen_app, zlen_map. split; [reflexivity|]. split; [rewrite <- Ed; lia|].
      rewrite It. unfold advance, moved, afterT. cbn [w_first w_nextf w_totalf w_nextpos w_after w_dsize w_nextv w_totalv w_savedpos w_savednext].
      replace (zlen l + zlen chunk =? 0) with false by lia. rewrite <- Ed. f_equal; lia.
    + exists (concat (map enc l)), taken. split; [reflexivity|]. rewrite It. unfold advance, moved, afterT. cbn [w_first w_nextf w_totalf w_nextpos w_after w_dsize w_nextv w_totalv w_savedpos w_savednext].
      rewrite zlen_app. split; [reflexivity|]. split; [lia|]. split; [lia|]. split; [reflexivity|].
      assert (Et : 0 + zlen l + n = (zlen (concat (map enc l)) + zlen taken) / bpf).
      { rewrite Il, Z.mul_comm. rewrite Z.div_add_l by lia. lia. }
      split; [exact Et|]. split; [exact Et|]. exists rest. exact Ed.
  - destruct HL as (B1 & B2 & Henc). destruct HI as (rl & pl & El & Fr & Fp & HBP & HW & Pd & Ho & St). cbn [base0 bPend app] in El.
    destruct HB0 as (D0 & tl0 & Ef0 & _).
    set (recv0 := map Some rl).
    set (broken := fun (f : file) (t : wtrack) => exists m d e tail, zlen rl = fpp * Z.of_nat m /\ encRun encB e0 (blk m fpp rl) = Ok (d, e) /\ zlen d = bpp * Z.of_nat m /\
        f = mkFile (overwrite hdr first (d ++ tail)) (first + zlen (d ++ tail)) /\ w_first t = first /\ w_dsize t = zlen (d ++ tail) /\ w_nextpos t = first + zlen (d ++ tail)).
    set (P := fun (x : file * wtrack * E * bool * disk) (recv : list (option F)) => let '(f, t, e, happy, dk) := x in
        okE e /\ placed f t /\ broken f t /\ (if happy then blockP junk okE fpp bpp encB b0 nv (f, t, e) recv else True) /\ (ds_disk s = [] -> happy = true /\ dk = [])).
    assert (HT : takes (blockPushD junk fpp bpp encB) P (goodO okF) fpp false).
    { intros [[[[f t] e] happy] d] recv outb n (Oe & HPl & HBr & HBk & HBd) Hn Hm Hone Hlo HG1. specialize (Hone eq_refl). subst n.
      assert (Ek : Z.quot (fpp + fpp - 1) fpp = 1) by (rewrite Z.quot_div_nonneg by lia; symmetry; apply Z.div_unique with (fpp - 1); lia).
      destruct (HBL fpp bpp encB f t e happy d outb fpp eq_refl HPl Oe ltac:(lia)) as (data & e' & taken & rest & fw & d' & R1 & L1 & O2 & Ed & E1 & Efw & Em).
      - rewrite Ek. lia.
      - rewrite Ek. rewrite Z.mul_1_r. apply good_unjunk. exact HG1.
      - rewrite E1. eexists. split; [reflexivity|]. rewrite Ek in R1, L1. change (Z.to_nat 1) with 1%nat in R1.
        split; [exact O2|]. split; [now apply placed_moved|]. pose proof (zlen_nonneg taken) as Zt. pose proof (zlen_nonneg rest) as Zr.
        assert (Lt : zlen taken + zlen rest = bpp) by (rewrite <- zlen_app, <- Ed; lia). split.
        + destruct HBr as (m & dd & ee & tail & M1 & M2 & M3 & M4 & M5 & M6 & M7). exists m, dd, ee, (tail ++ taken). split; [exact M1|]. split; [exact M2|]. split; [exact M3|].
          rewrite M4. cbn [fbytes fpos]. rewrite ow_app by lia. rewrite <- app_assoc. unfold advance, moved. cbn [w_first w_dsize w_nextpos]. rewrite !zlen_app in *. split; [f_equal; lia|]. lia.
        + split; [|intros Hd; destruct (HBd Hd) as [-> Hd2]; destruct (Em Hd2) as [-> ->]; split; [|reflexivity]; cbn [andb]; rewrite zlen_nil in Lt;
            rewrite Efw; replace (zlen taken) with bpp by lia; rewrite Z.div_same, Z.mul_1_l, Z.min_id, Z.ltb_irrefl by lia; reflexivity].
          destruct happy; cbn [andb]; [|exact I]. destruct (Z.ltb_spec fw fpp) as [Hlt|Hge]; cbn [negb]; [exact I|].
          assert (rest = []) as ->.
          { destruct rest as [|x rest]; [reflexivity|]. exfalso. rewrite zlen_cons in *. pose proof (zlen_nonneg rest).
            rewrite (Z.div_small (zlen taken)) in Efw by lia. lia. }
          rewrite app_nil_r in Ed. subst taken. rewrite L1 in Efw. rewrite Z.mul_1_r, Z.div_same, Z.mul_1_l, Z.min_id in Efw by lia. subst fw.
          destruct HBk as (m & dd & K1 & K2 & K3 & K4 & K5 & K6). exists (m + 1)%nat, (dd ++ data).
          assert (Lf : zlen (zfirstn fpp outb) = fpp) by (rewrite zlen_firstn by lia; lia).
          split; [rewrite zlen_app, Lf; lia|]. split.
          { rewrite map_app, blk_app by (rewrite ?zlen_map; lia). rewrite encRun_app, K2. cbn [rbind].
            assert (Eb : blk 1 fpp (map (unjunk junk) (zfirstn fpp outb)) = blk 1 fpp (map (unjunk junk) outb)).
            { cbn [blk]. f_equal. rewrite map_zfirstn. rewrite zfirstn_zfirstn by lia. f_equal. lia. }
            rewrite Eb, R1. reflexivity. }
          split; [rewrite zlen_app; lia|]. split; [exact O2|]. rewrite K5. cbn [fbytes fpos base0 bB bT w_nextpos] in *. rewrite ow_app by lia. rewrite !zlen_app.
          split; [f_equal; lia|]. rewrite K6. unfold advance, moved, afterT. cbn [w_first w_nextf w_totalf w_nextpos w_after w_dsize w_nextv w_totalv w_savedpos w_savednext].
          pose proof (zlen_nonneg recv). rewrite Lf. replace (zlen recv + fpp =? 0) with false by lia. f_equal; lia. }
    assert (HP0 : P (ws_file (ds_state s), ws_track (ds_state s), ws_enc (ds_state s), true, ds_disk s) recv0).
    { pose proof HBP as (m & d & K1 & K2 & K3 & K4 & K5 & K6). unfold P. split; [exact K4|]. split; [exact HP|]. split; [|split; [exact HBP|auto]].
      rewrite map_unjunk in K2. rewrite zlen_map in K1. cbn [base0 bE bB bT w_nextpos] in *. exists m, d, (ws_enc (ds_state s)), []. rewrite app_nil_r. rewrite K6. unfold afterT. cbn [w_first w_dsize w_nextpos].
      split; [exact K1|]. split; [exact K2|]. split; [exact K3|]. split; [exact K5|]. lia. }
    destruct (rebPush_ok (blockPushD junk fpp bpp encB) P (goodO okF) fpp false B1 HT (length chunk) (ws_reb (ds_state s)) (ws_out (ds_state s))
               (ws_file (ds_state s), ws_track (ds_state s), ws_enc (ds_state s), true, ds_disk s)
               (map Some (map conv chunk)) recv0) as (r' & outb' & s' & recv' & E1 & W' & P' & Lo & Eq & Md & Sh); auto.
    { rewrite Pd. now apply goodO_map. } { now apply goodO_map. } { rewrite !zlen_map. unfold zlen. lia. }
    rewrite E1. cbn [rbind]. destruct s' as [[[[f' t'] e'] h'] d']. destruct P' as (P1 & P2 & P3 & P4 & P5). eexists. split; [reflexivity|].
    cbn [ds_state ds_happy ds_disk ws_file ws_track ws_enc ws_reb ws_out]. split; [|exact P5]. destruct h'.
    + rewrite Pd in Eq. unfold recv0 in Eq. rewrite <- !map_app in Eq.
      assert (Spl : exists rl' pl', recv' = map Some rl' /\ pending r' = map Some pl' /\ rl' ++ pl' = rl ++ pl ++ map conv chunk).
      { clear -Eq. assert (G : forall (a b : list (option F)) w, a ++ b = map Some w -> exists a' b', a = map Some a' /\ b = map Some b' /\ a' ++ b' = w).
        { induction a as [|x a IH]; intros b w H.
          - exists [], w. auto.
          - destruct w as [|y w]; [discriminate|]. cbn in H. injection H as -> H. destruct (IH b w H) as (a' & b' & -> & -> & <-).
            exists (y :: a'), b'. auto. }
        apply G in Eq. exact Eq. }
      destruct Spl as (rl' & pl' & -> & Pd' & Eq'). exists rl', pl'.
      assert (FF : Forall okF (rl' ++ pl')) by (rewrite Eq'; apply Forall_app; split; [exact Fr|apply Forall_app; auto]).
      apply Forall_app in FF. destruct FF as [FF1 FF2].
      split; [cbn [base0 bPend app]; rewrite El, <- app_assoc; auto|]. split; [exact FF1|]. split; [exact FF2|]. split; [exact P4|].
      split; [exact W'|]. split; [exact Pd'|]. split; [lia|].
      destruct (Sh eq_refl) as [[-> Er]|[Hge Hst]].
      * assert (rl' = rl). { apply (f_equal (map (unjunk junk))) in Er. unfold recv0 in Er. rewrite !map_unjunk in Er. exact Er. } subst rl'.
        apply app_inv_head in Eq'. subst pl'.
        rewrite zlen_app. pose proof (zlen_nonneg pl). pose proof (zlen_nonneg (map conv chunk)).
        rewrite <- !(zskipn_zskipn (zlen (map conv chunk)) (zlen pl)) by lia. now rewrite St.
      * rewrite Hst. unfold recv0 in Hge. rewrite !zlen_map in *. unfold lastb. destruct rl' as [|x rl'].
        { rewrite zlen_nil in Hge. pose proof (zlen_nonneg rl). lia. }
        f_equal. unfold zskipn. rewrite skipn_map, map_unjunk. reflexivity.
    + destruct P3 as (m & d & e & tail & M1 & M2 & M3 & M4 & M5 & M6 & M7). exists d, tail. split; [exact M4|]. split; [exact M5|]. split; [exact M6|]. split; [exact M7|].
      exists rl, pl, e. split; [exact El|]. destruct HW as [Wb Wo]. split.
      { rewrite <- (zlen_map (@Some F)), <- Pd. unfold pending. rewrite zlen_firstn by lia. lia. }
      assert (Eqm : zlen rl / fpp = Z.of_nat m) by (rewrite M1, Z.mul_comm, Z.div_mul by lia; reflexivity).
      split; [rewrite M1, Z.mul_comm; apply Z.mod_mul; lia|]. rewrite Eqm, Nat2Z.id. split; [exact M2|exact M3].
Qed.

Lemma open_sane : sane (openWrite c hdr first cap e0).
Proof.
  unfold sane, openWrite, placed, rebOK. cbn [ws_file ws_track ws_enc ws_reb ws_out fpos w_nextpos w_first w_dsize]. split; [lia|]. split; [exact He0|].
  pose proof Hlaw as HL. destruct c as [isPCM bpf enc|fpp bpp encB]; [exact I|]. destruct HL as (B1 & _). destruct (rebInitPush_W (A := F) fpp B1) as [W0 P0].
  split; [exact W0|]. split; [rewrite P0; constructor|]. split; [rewrite zlen_repeat by lia; lia|].
  apply Forall_map. apply Forall_firstn. unfold zrepeat. apply Forall_forall. intros o Ho. apply repeat_spec in Ho. subst o. exact Hjunk.
Qed.
Lemma sane_saneAt st : sane st -> saneAt st.
Proof.
  intros HS. unfold saneAt, wseeked, wsetFile, fseek. destruct HS as ((P1 & P2) & S2). rewrite <- P1.
  split; [split; [exact P1|exact P2]|exact S2].
Qed.
Lemma sane_seeked st : sane st -> wseeked true st = st.
Proof.
  intros ((P1 & P2) & _). unfold wseeked, wsetFile, fseek. rewrite <- P1. destruct st as [[fb fp] t e r o]. reflexivity.
Qed.

Lemma writeLoopD_ok fuel : forall s l nv samples v, Forall okF l -> Forall okF (map conv samples) -> ds_happy s = true ->
  binv c junk okF okE b0 (ds_state s) (l ++ map conv (zfirstn v samples)) nv -> 0 <= v <= zlen samples -> zlen samples - v < Z.of_nat fuel ->
  exists s' r, writeLoopD c conv junk true fuel s samples v (zlen samples) = Ok (s', r) /\ v <= r /\
    (if ds_happy s' then r = zlen samples /\ binv c junk okF okE b0 (ds_state s') (l ++ map conv samples) nv
     else exists count, 0 < count <= ATOMIC /\ r + count <= zlen samples /\
       begins (ws_file (ds_state s')) (ws_track (ds_state s')) (l ++ map conv (zfirstn r samples)) (map conv (zfirstn count (zskipn r samples)))) /\ (ds_disk s = [] -> ds_happy s' = true /\ ds_disk s' = []).
Proof.
  induction fuel as [|fuel IH]; intros s l nv samples v Hl Hs Hh HI Hv Hf; [lia|].
  cbn [writeLoopD]. destruct (Z.ltb_spec v (zlen samples)) as [Hlt|Hge]; cbn [negb].
  - set (count := if v <=? zlen samples - ATOMIC then ATOMIC else zlen samples - v).
    assert (Hc : 0 < count <= zlen samples - v /\ count <= ATOMIC) by (unfold count, ATOMIC; destruct (Z.leb_spec v (zlen samples - 1024)); lia).
    clearbody count. rewrite slice_ok by lia. cbn [rbind].
    assert (Hp1 : Forall okF (map conv (zfirstn v samples))) by (rewrite map_zfirstn; apply Forall_firstn; exact Hs).
    destruct (userPushD_ok s (l ++ map conv (zfirstn v samples)) nv (zfirstn count (zskipn v samples)) HI) as (s1 & E1 & I1 & D1); auto.
    { apply Forall_app; auto. }
    { rewrite map_zfirstn, map_zskipn. apply Forall_firstn, Forall_skipn. exact Hs. }
    { intros E0. apply (f_equal (@zlen V)) in E0. rewrite zlen_nil in E0. rewrite zlen_firstn, zlen_skipn in E0 by lia. lia. }
    rewrite E1. cbn [rbind]. destruct (ds_happy s1) eqn:Eh; cbn [negb].
    + destruct (IH s1 l nv samples (v + count) Hl Hs Eh) as (s' & r & E2 & R2 & H2 & D2); try lia.
      { rewrite <- app_assoc, <- map_app, <- zfirstn_split in I1 by lia. exact I1. }
      exists s', r. split; [exact E2|]. split; [lia|]. split; [exact H2|]. intros Hd. apply D2. apply D1. exact Hd.
    + exists s1, v. split; [reflexivity|]. split; [lia|]. rewrite Eh. split; [|intros Hd; destruct (D1 Hd); congruence]. exists count. split; [lia|]. split; [lia|exact I1].
  - replace v with (zlen samples) in * by lia. exists s, (zlen samples). split; [reflexivity|]. split; [lia|]. rewrite Hh. split; [|auto]. split; [reflexivity|]. rewrite zfirstn_all in HI by lia. exact HI.
Qed.

Lemma afWriteFramesD_ok s l nv samples : sane (ds_state s) -> binv c junk okF okE b0 (ds_state s) l nv -> Forall okF l -> Forall okF (map conv samples) ->
  exists r s', afWriteFramesD c conv junk true s samples = Ok (r, s') /\ sane (ds_state s') /\ 0 <= r <= zlen samples /\ ds_happy s' = (r =? zlen samples) /\
    (if ds_happy s' then r = zlen samples /\ binv c junk okF okE b0 (ds_state s') (l ++ map conv samples) (nv + zlen samples)
     else exists count, 0 < count <= ATOMIC /\ r + count <= zlen samples /\
       begins (ws_file (ds_state s')) (ws_track (ds_state s')) (l ++ map conv (zfirstn r samples)) (map conv (zfirstn count (zskipn r samples)))) /\ (ds_disk s = [] -> ds_happy s' = true /\ ds_disk s' = []).
Proof.
  intros HS HI Hl Hs. destruct (afWriteFramesD_sane s samples (sane_saneAt _ HS) Hs) as (r & s' & E1 & S1 & R1 & H1 & _). exists r, s'.
  split; [exact E1|]. split; [exact S1|]. split; [exact R1|]. split; [exact H1|]. unfold afWriteFramesD in E1. fold (wseeked true (ds_state s)) in E1. rewrite (sane_seeked _ HS) in E1.
  pose proof (zlen_nonneg samples).
  destruct (writeLoopD_ok (Z.to_nat (zlen samples) + 1) (mkDS (ds_state s) true (ds_disk s)) l nv samples 0 Hl Hs eq_refl) as (s1 & r1 & E2 & R2 & H2 & D2); try lia.
  { cbn [ds_state]. rewrite zfirstn_0 by lia. cbn [map]. rewrite app_nil_r. exact HI. }
  rewrite E2 in E1. cbn [rbind] in E1. assert (Er : r = r1) by congruence. subst r1.
  match type of E1 with Ok (_, ?x) = _ => assert (s' = x) as -> by congruence end. cbn [ds_state ds_happy ds_disk]. split; [|exact D2].
  destruct (ds_happy s1).
  - destruct H2 as [-> H2]. split; [reflexivity|]. exact (binv_setnv c junk okF okE Hlaw b0 (ds_state s1) _ nv _ H2).
  - destruct H2 as (count & C1 & C2 & H2). exists count. split; [exact C1|]. split; [exact C2|]. unfold wsetTrack. cbn [ws_file ws_track].
    destruct H2 as (D & tail & M1 & M2 & M3 & M4 & M5). exists D, tail. cbn [w_first w_dsize w_nextpos w_totalf w_nextf]. auto.
Qed.

Lemma writeUntilShort_ok ws : forall s l nv, sane (ds_state s) -> binv c junk okF okE b0 (ds_state s) l nv -> ds_happy s = true -> Forall okF l -> Forall okF (map conv (concat ws)) ->
  exists k s', writeUntilShort c conv junk true s ws = Ok (k, s') /\ sane (ds_state s') /\ 0 <= k <= zlen (concat ws) /\ ds_happy s' = (k =? zlen (concat ws)) /\
    (if ds_happy s' then k = zlen (concat ws) /\ exists nv', binv c junk okF okE b0 (ds_state s') (l ++ map conv (concat ws)) nv'
     else exists count, 0 < count <= ATOMIC /\ k + count <= zlen (concat ws) /\
       begins (ws_file (ds_state s')) (ws_track (ds_state s')) (l ++ map conv (zfirstn k (concat ws))) (map conv (zfirstn count (zskipn k (concat ws))))) /\ (ds_disk s = [] -> ds_happy s' = true /\ ds_disk s' = []).
Proof.
  induction ws as [|w ws IH]; intros s l nv HS HI Hh Hl Hw.
  - exists 0, s. cbn [concat writeUntilShort map]. change (zlen (@nil V)) with 0. rewrite Hh, app_nil_r. cbn. split; [reflexivity|]. split; [exact HS|]. split; [lia|]. split; [reflexivity|]. split; [|auto]. split; [reflexivity|]. eauto.
  - cbn [concat] in Hw |- *. rewrite map_app in Hw. apply Forall_app in Hw. destruct Hw as [W1 W2]. cbn [writeUntilShort]. pose proof (zlen_nonneg (concat ws)) as Zc.
    destruct (afWriteFramesD_ok s l nv w HS HI Hl W1) as (r & s1 & E1 & S1 & R1 & H1 & K1 & D1). rewrite E1. cbn [rbind].
    destruct (Z.ltb_spec r (zlen w)) as [Hlt|Hge].
    + rewrite (proj2 (Z.eqb_neq _ _)) in H1 by lia. rewrite H1 in K1. exists r, s1. rewrite H1. split; [reflexivity|]. split; [exact S1|]. rewrite zlen_app. split; [lia|].
      split; [symmetry; apply Z.eqb_neq; lia|]. split; [|intros Hd; destruct (D1 Hd); congruence]. destruct K1 as (count & C1 & C2 & K1). exists count. split; [exact C1|]. split; [lia|].
      rewrite zfirstn_app_l by lia. rewrite zskipn_app_l by lia. rewrite zfirstn_app_l by (rewrite zlen_skipn by lia; lia). exact K1.
    + rewrite (proj2 (Z.eqb_eq _ _)) in H1 by lia. rewrite H1 in K1. destruct K1 as [-> K1].
      destruct (IH s1 (l ++ map conv w) _ S1 K1 H1) as (k & s2 & E2 & S2 & R2 & H2 & K2 & D2); [apply Forall_app; auto|exact W2|]. rewrite E2. cbn [rbind]. exists (zlen w + k), s2.
      split; [reflexivity|]. split; [exact S2|]. rewrite zlen_app. split; [lia|]. split; [rewrite H2; destruct (Z.eqb_spec k (zlen (concat ws))), (Z.eqb_spec (zlen w + k) (zlen w + zlen (concat ws))); lia|].
      split; [|intros Hd; apply D2; apply D1; exact Hd]. destruct (ds_happy s2).
      * destruct K2 as [-> (nv' & K2)]. split; [reflexivity|]. exists nv'. rewrite map_app, app_assoc. exact K2.
      * destruct K2 as (count & C1 & C2 & K2). exists count. split; [exact C1|]. split; [lia|].
        rewrite zfirstn_app_r by lia. rewrite zskipn_app_r by lia. replace (zlen w + k - zlen w) with k by lia. rewrite map_app, app_assoc. exact K2.
Qed.

(** From opening to the first short count, in one statement. *)
Lemma stopped ws d : Forall okF (map conv (concat ws)) ->
  exists k s', writeUntilShort c conv junk true (mkDS (openWrite c hdr first cap e0) true d) ws = Ok (k, s') /\ sane (ds_state s') /\ 0 <= k <= zlen (concat ws) /\ ds_happy s' = (k =? zlen (concat ws)) /\
    exists count, 0 <= count <= ATOMIC /\ k + count <= zlen (concat ws) /\
       begins (ws_file (ds_state s')) (ws_track (ds_state s')) (map conv (zfirstn k (concat ws))) (map conv (zfirstn count (zskipn k (concat ws)))).
Proof.
  intros Hw. pose proof (open_binv c junk okF okE Hlaw hdr first cap e0 He0 Hcap) as OB.
  destruct (writeUntilShort_ok ws (mkDS (openWrite c hdr first cap e0) true d) [] 0 open_sane OB eq_refl (Forall_nil _) Hw) as (k & s' & E1 & S1 & R1 & H1 & K1 & _).
  exists k, s'. split; [exact E1|]. split; [exact S1|]. split; [exact R1|]. split; [exact H1|]. destruct (ds_happy s').
  - destruct K1 as [-> (nv & K1)]. exists 0. rewrite zfirstn_all by lia. rewrite (zfirstn_0 0) by lia. cbn [app map] in *. split; [unfold ATOMIC; lia|]. split; [lia|].
    eapply binv_begins; [exact Hw|exact K1].
  - destruct K1 as (count & C1 & C2 & K1). exists count. split; [lia|]. split; [exact C2|exact K1].
Qed.
End FromOpen.
End Main.
