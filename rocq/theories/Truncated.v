(** A file whose end is missing is read as the complete file would be from a source that delivers less ([Faults]). *)
From Verif Require Import Prelude PreludeFacts FileIO Rebuffer Reader ReaderSpec Faults.

(** ** Runs on the shorter file, and runs on the complete one with the answers used up one after the other *)
Definition sim {X} (x : res X) (g : source -> res X) (P : X -> (source -> X) -> Prop) : Prop :=
  exists used, match x with
  | Ok v => exists h, P v h /\ forall d, g (used ++ d) = Ok (h d)
  | UB => forall d, g (used ++ d) = UB
  | Abort => forall d, g (used ++ d) = Abort
  | OutOfFuel => forall d, g (used ++ d) = OutOfFuel
  end.

Lemma sim_bind {X Y} (x : res X) g (P : X -> (source -> X) -> Prop) (k : X -> res Y) (Q : Y -> (source -> Y) -> Prop) :
  sim x g P -> (forall v h, P v h -> sim (k v) (fun d => k (h d)) Q) -> sim (rbind x k) (fun d => rbind (g d) k) Q.
Proof.
  intros (used & H) Hk. destruct x as [v| | |]; cbn [rbind].
  - destruct H as (h & HP & Hg). destruct (Hk v h HP) as (used2 & H2). exists (used ++ used2).
    destruct (k v); [destruct H2 as (h2 & HQ & H2); exists h2; split; [exact HQ|]|..]; intros d; rewrite <- app_assoc, Hg; cbn [rbind]; apply H2.
  - exists used. intros d. now rewrite H.
  - exists used. intros d. now rewrite H.
  - exists used. intros d. now rewrite H.
Qed.

(** A step that does not touch the file. *)
Lemma sim_pure {X Y} (x : res X) (k : X -> res Y) (k' : source -> X -> res Y) (Q : Y -> (source -> Y) -> Prop) :
  (forall v, sim (k v) (fun d => k' d v) Q) -> sim (rbind x k) (fun d => rbind x (k' d)) Q.
Proof. intros Hk. destruct x as [v| | |]; cbn [rbind]; [apply Hk|exists []; reflexivity..]. Qed.

Lemma sim_ok {X} (v : X) h (P : X -> (source -> X) -> Prop) : P v h -> sim (Ok v) (fun d => Ok (h d)) P.
Proof. intros H. exists []. exists h. auto. Qed.

Section Truncated.
Context {B : Build}.
Context {F V : Type}.
Variable c : codec F.
Variable conv : F -> V.
Variable hasConv : bool.
Variable seekok : bool.
Variable L : Z.

(** The shorter file at the same position. *)
Definition cutFile (ft ff : file) : Prop := fbytes ft = zfirstn L (fbytes ff) /\ fpos ft = fpos ff.

Lemma dread_cut ft ff n : cutFile ft ff -> exists data ft' ff' a, dread [] ft n = (data, ft', []) /\ cutFile ft' ff' /\ forall d, dread (a :: d) ff n = (data, ff', d).
Proof.
  intros [H1 H2]. unfold dread, fread. rewrite H1, H2.
  set (data := zfirstn n (zskipn (fpos ff) (zfirstn L (fbytes ff)))). set (full := zfirstn n (zskipn (fpos ff) (fbytes ff))).
  assert (E : zfirstn (zlen data) full = data).
  { unfold data, full, zfirstn, zskipn, zlen. rewrite Nat2Z.id. rewrite skipn_firstn_comm. rewrite !firstn_firstn, !firstn_length.
    set (l := skipn _ _). set (k := Nat.min (Z.to_nat n) (_ - _)). assert (Hk : (k <= Z.to_nat n)%nat) by (unfold k; lia). clearbody k l.
    destruct (Nat.le_gt_cases k (length l)).
    - f_equal. lia.
    - rewrite !firstn_all2 by lia. reflexivity. }
  eexists data, _, _, (zlen data). split; [reflexivity|]. split; [|intros d; pose proof (zlen_nonneg data); replace (zlen data <? 0) with false by lia; rewrite E; reflexivity].
  split; cbn [fbytes fpos]; reflexivity.
Qed.

Definition P1 {X} (v : X * (file * rtrack * source)) (h : source -> X * (file * rtrack * source)) : Prop :=
  let '(l, (ft, t, dt)) := v in dt = [] /\ exists ff, cutFile ft ff /\ forall d, h d = (l, (ff, t, d)).

Lemma sim_ext {X} (x : res X) g g' P : (forall d, g d = g' d) -> sim x g P -> sim x g' P.
Proof. intros E (used & H). exists used. destruct x; [destruct H as (h & H1 & H2); exists h; split; [exact H1|]|..]; intros d; rewrite <- E; auto. Qed.
Lemma sim_more {X} (x : res X) g a g' P : (forall d, g (a :: d) = g' d) -> sim x g' P -> sim x g P.
Proof. intros E (used & H). exists (a :: used). cbn [app]. destruct x; [destruct H as (h & H1 & H2); exists h; split; [exact H1|]|..]; intros d; rewrite E; auto. Qed.

Lemma perFramePull_cut p bpf dec ft ff t n : cutFile ft ff ->
  sim (perFramePullF seekok p bpf dec (ft, t, []) n) (fun d => perFramePullF (F := F) seekok p bpf dec (ff, t, d) n) P1.
Proof.
  intros H. unfold perFramePullF. cbv zeta. match goal with |- context [ (?w <? 0) || (bpf <=? 0) ] => set (want := w) end. destruct ((want <? 0) || (bpf <=? 0)); [exists []; reflexivity|].
  destruct (dread_cut ft ff (bpf * want) H) as (data & ft' & ff' & a & E1 & C & E2). rewrite E1.
  eapply (sim_more _ _ a). { intros d. rewrite E2. reflexivity. } cbn beta iota. cbv zeta.
  unfold ftell. destruct C as [C1 C2]. rewrite C2. apply sim_pure. intros _. apply sim_ok. split; [reflexivity|]. exists ff'. split; [split; assumption|reflexivity].
Qed.

Lemma blockPull_cut fpp bpp decB ft ff t n : cutFile ft ff ->
  sim (blockPullF fpp bpp decB (ft, t, []) n) (fun d => blockPullF (F := F) fpp bpp decB (ff, t, d) n) P1.
Proof.
  intros H. unfold blockPullF. destruct ((fpp <=? 0) || (bpp <=? 0)); [exists []; reflexivity|].
  apply sim_pure. intros _.
  destruct (dread_cut ft ff (bpp * (n ÷ fpp)) H) as (data & ft' & ff' & a & E1 & C & E2). cbv zeta. rewrite E1.
  eapply (sim_more _ _ a). { intros d. rewrite E2. reflexivity. } cbn beta iota.
  apply sim_pure. intros bs. unfold ftell. destruct C as [C1 C2]. rewrite C2. apply sim_pure. intros _. apply sim_ok. split; [reflexivity|]. exists ff'. split; [split; assumption|reflexivity].
Qed.

Lemma pullLoop_cut fpp bpp decB : forall fuel eof (buffer : list (option F)) offset out outPos ftp ft ff t, cutFile ft ff ->
  sim (pullLoop (blockPullF fpp bpp decB) fpp false fuel eof buffer offset out outPos ftp (ft, t, []))
      (fun d => pullLoop (blockPullF fpp bpp decB) fpp false fuel eof buffer offset out outPos ftp (ff, t, d)) P1.
Proof.
  induction fuel as [|fuel IH]; intros eof buffer offset out outPos ftp ft ff t H; cbn [pullLoop].
  { destruct (eof || (ftp <=? 0)); [|exists []; reflexivity]. apply sim_ok. split; [reflexivity|]. exists ff. auto. }
  destruct (eof || (ftp <=? 0)). { apply sim_ok. split; [reflexivity|]. exists ff. auto. }
  apply sim_pure. intros _. eapply sim_bind; [apply blockPull_cut; exact H|].
  intros [inb [[ft1 t1] d1]] h (-> & ff1 & C1 & Hh).
  eapply sim_ext. { intros d. rewrite Hh. reflexivity. } cbn beta iota.
  apply sim_pure. intros seg. apply sim_pure. intros out1. apply sim_pure. intros _. cbv zeta. destruct (ftp - zlen inb <? 0).
  - apply sim_pure. intros _. apply sim_pure. intros _. apply sim_pure. intros seg2. apply sim_pure. intros b2. apply IH. exact C1.
  - apply sim_pure. intros _. apply IH. exact C1.
Qed.

Lemma rebPull_cut fpp bpp decB fuel r ft ff t n : cutFile ft ff ->
  sim (rebPull (blockPullF fpp bpp decB) fpp false fuel r (ft, t, []) n) (fun d => rebPull (blockPullF (F := F) fpp bpp decB) fpp false fuel r (ff, t, d) n) P1.
Proof.
  intros H. unfold rebPull. apply sim_pure. intros _. apply sim_pure. intros _. cbv zeta. apply sim_pure. intros [[[out outPos] ftp] offset].
  eapply sim_bind; [apply pullLoop_cut; exact H|]. intros [[[[[eof buffer] offset1] out1] ftp1] [[ft1 t1] d1]] h (-> & ff1 & C1 & Hh).
  eapply sim_ext. { intros d. rewrite Hh. reflexivity. } cbn beta iota.
  destruct (eof && (0 <? ftp1)); repeat (apply sim_pure; intros _); apply sim_ok; (split; [reflexivity|]); exists ff1; auto.
Qed.

Definition cutState (st sf : rstate F) : Prop := cutFile (rs_file st) (rs_file sf) /\ rs_track st = rs_track sf /\ rs_reb st = rs_reb sf.
Definition P2 {X} (v : X * rstate F * source) (h : source -> X * rstate F * source) : Prop :=
  let '(l, st, dt) := v in dt = [] /\ exists sf, cutState st sf /\ forall d, h d = (l, sf, d).

Lemma userPull_cut st sf n : cutState st sf -> sim (userPullF c conv hasConv seekok st [] n) (fun d => userPullF c conv hasConv seekok sf d n) P2.
Proof.
  intros (H1 & H2 & H3). unfold userPullF. rewrite H2, H3.
  apply sim_bind with (P := P2).
  - destruct c as [p bpf dec|fpp bpp decB].
    + eapply sim_bind; [apply perFramePull_cut; exact H1|]. intros [l [[ft t] d1]] h (-> & ff & C & Hh). eapply sim_ext. { intros d. rewrite Hh. reflexivity. } cbn beta iota.
      apply sim_ok. split; [reflexivity|]. exists (mkRS ff t (rs_reb sf)). split; [split; [exact C|split; reflexivity]|reflexivity].
    + eapply sim_bind; [apply rebPull_cut; exact H1|]. intros [[l r] [[ft t] d1]] h (-> & ff & C & Hh). eapply sim_ext. { intros d. rewrite Hh. reflexivity. } cbn beta iota.
      apply sim_ok. split; [reflexivity|]. exists (mkRS ff t r). split; [split; [exact C|split; reflexivity]|reflexivity].
  - intros [[l s1] d1] h (-> & sf1 & C & Hh). eapply sim_ext. { intros d. rewrite Hh. reflexivity. } cbn beta iota zeta.
    apply sim_ok. split; [reflexivity|]. exists sf1. auto.
Qed.

Lemma readLoop_cut : forall fuel st sf eof acc n, cutState st sf ->
  sim (readLoopF c conv hasConv seekok fuel st [] eof acc n) (fun d => readLoopF c conv hasConv seekok fuel sf d eof acc n) P2.
Proof.
  induction fuel as [|fuel IH]; intros st sf eof acc n H; cbn [readLoopF]; pose proof H as (H1 & H2 & H3); rewrite H2.
  { destruct (negb _); [|exists []; reflexivity]. apply sim_ok. split; [reflexivity|]. exists sf. auto. }
  destruct (negb _). { apply sim_ok. split; [reflexivity|]. exists sf. auto. }
  cbv zeta. eapply sim_bind; [apply userPull_cut; exact H|].
  intros [[l s1] d1] h (-> & sf1 & C & Hh). eapply sim_ext. { intros d. rewrite Hh. reflexivity. } cbn beta iota.
  pose proof C as (_ & C2 & _). rewrite C2. destruct (t_happy (rs_track sf1)); apply IH; exact C.
Qed.

Definition P3 {X} (v : X * bool * rstate F * source) (h : source -> X * bool * rstate F * source) : Prop :=
  let '(l, e, st, dt) := v in dt = [] /\ exists sf, cutState st sf /\ forall d, h d = (l, e, sf, d).

Lemma afReadFrames_cut st sf n : cutState st sf ->
  sim (afReadFramesF c conv hasConv seekok st [] n) (fun d => afReadFramesF c conv hasConv seekok sf d n) P3.
Proof.
  intros (H1 & H2 & H3). unfold afReadFramesF. rewrite H2, H3. cbv zeta.
  set (sf0 := mkRS (if seekok then fseek (rs_file sf) (t_nextpos (rs_track sf)) else rs_file sf) (setHappy (rs_track sf) true) (rs_reb sf)).
  set (st0 := mkRS (if seekok then fseek (rs_file st) (t_nextpos (rs_track sf)) else rs_file st) (setHappy (rs_track sf) true) (rs_reb sf)).
  assert (C0 : cutState st0 sf0).
  { split; [|split; reflexivity]. unfold st0, sf0. cbn [rs_file]. destruct seekok; [|exact H1]. destruct H1 as [H1 _]. split; [exact H1|reflexivity]. }
  clearbody st0 sf0.
  apply sim_bind with (P := fun (v : rstate F * source * bool) h => let '(st, dt, eof) := v in dt = [] /\ exists sf, cutState st sf /\ forall d, h d = (sf, d, eof)).
  - destruct (negb (t_ignore (rs_track sf) =? 0)).
    + destruct (t_ignore (rs_track sf) <? 0); [exists []; reflexivity|]. eapply sim_bind; [apply userPull_cut; exact C0|].
      intros [[l s1] d1] h (-> & sf1 & C & Hh). eapply sim_ext. { intros d. rewrite Hh. reflexivity. } cbn beta iota.
      apply sim_ok. split; [reflexivity|].
      exists (setTrack sf1 (setIgnore (rs_track sf1) 0)). split; [|reflexivity]. destruct C as (C1 & C2 & C3). split; [exact C1|]. split; [cbn [setTrack rs_track]; now rewrite C2|exact C3].
    + apply sim_ok. split; [reflexivity|]. exists sf0. auto.
  - intros [[s1 d1] eof] h (-> & sf1 & C & Hh). eapply sim_ext. { intros d. rewrite Hh. reflexivity. } cbn beta iota.
    eapply sim_bind; [apply readLoop_cut; exact C|]. intros [[l s2] d2] h2 (-> & sf2 & C' & Hh2). eapply sim_ext. { intros d. rewrite Hh2. reflexivity. } cbn beta iota.
    destruct C' as (C1 & C2 & C3). rewrite C2. apply sim_ok. split; [reflexivity|].
    eexists. split; [|reflexivity]. split; [exact C1|]. split; [reflexivity|exact C3].
Qed.

Lemma afSeekFrame_cut st sf k : cutState st sf -> fst (afSeekFrame c st k) = fst (afSeekFrame c sf k) /\ cutState (snd (afSeekFrame c st k)) (snd (afSeekFrame c sf k)).
Proof.
  intros (H1 & H2 & H3). unfold afSeekFrame. rewrite H2. destruct (k <? 0); [split; [reflexivity|split; auto]|]. destruct (k =? _); [split; [reflexivity|split; auto]|].
  cbv zeta. unfold setupRead, setTrack. cbn [rs_track rs_file rs_reb]. destruct c; cbn [fst snd rs_track]; (split; [reflexivity|]); split; cbn [rs_file rs_track rs_reb]; try (split; [reflexivity|]); rewrite ?H3; auto.
Qed.

Lemma fstep_cut st sf o : cutState st sf -> sim (fstep c conv hasConv seekok st [] o) (fun d => fstep c conv hasConv seekok sf d o) P3.
Proof.
  intros H. destruct o as [n|k| |]; cbn [fstep].
  - eapply sim_bind; [apply afReadFrames_cut; exact H|]. intros [[[l e] s1] d1] h (-> & sf1 & C & Hh). eapply sim_ext. { intros d. rewrite Hh. reflexivity. } cbn beta iota.
    apply sim_ok. split; [reflexivity|]. exists sf1. auto.
  - destruct (afSeekFrame_cut st sf k H) as [E C]. destruct (afSeekFrame c st k) as [z s1], (afSeekFrame c sf k) as [z2 sf1]. cbn [fst snd] in *. subst z2.
    apply sim_ok. split; [reflexivity|]. exists sf1. auto.
  - unfold afTellFrame. destruct (afSeekFrame_cut st sf (-1) H) as [E C]. destruct (afSeekFrame c st (-1)) as [z s1], (afSeekFrame c sf (-1)) as [z2 sf1]. cbn [fst snd] in *. subst z2.
    apply sim_ok. split; [reflexivity|]. exists sf1. auto.
  - unfold afGetFrameCount. pose proof H as (_ & H2 & _). rewrite H2. apply sim_ok. split; [reflexivity|]. exists sf. auto.
Qed.

Lemma frun_cut : forall ops st sf, cutState st sf -> exists d, frun c conv hasConv seekok st [] ops = frun c conv hasConv seekok sf d ops.
Proof.
  induction ops as [|o ops IH]; intros st sf H; [exists []; reflexivity|]. cbn [frun].
  destruct (fstep_cut st sf o H) as (used & S). destruct (fstep c conv hasConv seekok st [] o) as [[[[r e] s1] d1]| | |].
  - destruct S as (h & (-> & sf1 & C & Hh) & Hg). destruct (IH s1 sf1 C) as (d & E). exists (used ++ d). rewrite Hg, Hh. now rewrite E.
  - exists (used ++ []). now rewrite S.
  - exists (used ++ []). now rewrite S.
  - exists (used ++ []). now rewrite S.
Qed.

Lemma open_cut bytes first total : cutState (openRead c (zfirstn L bytes) first total) (openRead c bytes first total).
Proof.
  unfold openRead, setupRead. destruct c; cbn [rs_track rs_file rs_reb]; (split; [split; reflexivity|split; reflexivity]).
Qed.
End Truncated.
