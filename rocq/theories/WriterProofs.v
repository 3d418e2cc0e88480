(** Proofs about [Writer]. *)
From Verif Require Import Prelude PreludeFacts FileIO Rebuffer RebufferProofs Reader Writer WriterSpec.

(** ** Overwriting *)
Lemma ow_unfold b p d : 0 <= p -> d <> [] -> exists pre, zlen pre = p /\ overwrite b p d = pre ++ d ++ zskipn (p + zlen d) b /\
  (forall n, n <= zlen b -> n <= p -> zfirstn n pre = zfirstn n b).
Proof.
  intros Hp Hd. destruct d as [|x d]; [congruence|]. unfold overwrite.
  eexists. split; [|split; [reflexivity|]].
  - rewrite zlen_firstn by lia. rewrite zlen_app. pose proof (zlen_nonneg b).
    destruct (Z.le_gt_cases (p - zlen b) 0).
    + unfold zrepeat. replace (Z.to_nat (p - zlen b)) with O by lia. cbn [repeat]. rewrite zlen_nil. lia.
    + rewrite zlen_repeat by lia. lia.
  - intros n H1 H2. rewrite zfirstn_zfirstn. rewrite Z.min_l by lia. apply zfirstn_app_l. exact H1.
Qed.

Lemma ow_nil b p : overwrite b p [] = b.
Proof. reflexivity. Qed.

Lemma ow_len b p d : 0 <= p -> d <> [] -> zlen (overwrite b p d) = Z.max (zlen b) (p + zlen d).
Proof.
  intros Hp Hd. destruct (ow_unfold b p d Hp Hd) as (pre & L & -> & _). pose proof (zlen_nonneg d).
  rewrite !zlen_app, zlen_skipn by lia. lia.
Qed.

Lemma ow_app b p d1 d2 : 0 <= p -> overwrite (overwrite b p d1) (p + zlen d1) d2 = overwrite b p (d1 ++ d2).
Proof.
  intros Hp. destruct d1 as [|x d1]; [rewrite zlen_nil, Z.add_0_r; reflexivity|].
  destruct d2 as [|y d2]; [rewrite app_nil_r; reflexivity|].
  unfold overwrite at 2 3. cbn [app].
  set (pre := zfirstn p (b ++ zrepeat 0 (p - zlen b))).
  assert (Lp : zlen pre = p).
  { unfold pre. rewrite zlen_firstn by lia. rewrite zlen_app. pose proof (zlen_nonneg b).
    destruct (Z.le_gt_cases (p - zlen b) 0).
    + unfold zrepeat. replace (Z.to_nat (p - zlen b)) with O by lia. cbn [repeat]. rewrite zlen_nil. lia.
    + rewrite zlen_repeat by lia. lia. }
  change (x :: d1 ++ y :: d2) with ((x :: d1) ++ (y :: d2)).
  set (a := x :: d1). set (c := y :: d2). pose proof (zlen_nonneg a) as La. pose proof (zlen_nonneg c) as Lc.
  unfold overwrite. unfold c at 1. fold c.
  change (x :: d1 ++ zskipn (p + zlen a) b) with (a ++ zskipn (p + zlen a) b).
  change (x :: (d1 ++ c) ++ zskipn (p + zlen (a ++ c)) b) with ((a ++ c) ++ zskipn (p + zlen (a ++ c)) b).
  rewrite zfirstn_app_l by (rewrite !zlen_app; pose proof (zlen_nonneg (zskipn (p + zlen a) b)); lia).
  rewrite (app_assoc pre a). rewrite zfirstn_app_l by (rewrite zlen_app; lia). rewrite zfirstn_all by (rewrite zlen_app; lia).
  rewrite zskipn_app_r by (rewrite zlen_app; lia). rewrite zlen_app, Lp.
  rewrite zskipn_zskipn by lia. rewrite zlen_app, <- !app_assoc. do 4 f_equal. lia.
Qed.

Lemma ow_region_data b p d : 0 <= p -> region (overwrite b p d) p (zlen d) = d.
Proof.
  intros Hp. unfold region. destruct d as [|x d]; [rewrite zlen_nil, zfirstn_0 by lia; reflexivity|].
  set (a := x :: d). destruct (ow_unfold b p a Hp ltac:(discriminate)) as (pre & L & -> & _).
  rewrite zskipn_app_r by lia. rewrite zskipn_0 by lia. apply zfirstn_exact.
Qed.

Lemma ow_prefix b p d n : 0 <= p -> n <= p -> n <= zlen b -> zfirstn n (overwrite b p d) = zfirstn n b.
Proof.
  intros Hp Hn Hl. destruct d as [|x d]; [reflexivity|]. set (a := x :: d).
  destruct (ow_unfold b p a Hp ltac:(discriminate)) as (pre & L & -> & Q).
  rewrite zfirstn_app_l by lia. apply Q; lia.
Qed.

Lemma region_firstn b from n m : 0 <= from -> 0 <= n -> from + n <= m -> region (zfirstn m b) from n = region b from n.
Proof.
  intros. unfold region, zfirstn, zskipn. rewrite skipn_firstn_comm, firstn_firstn. f_equal. lia.
Qed.

Lemma ow_region_before b p d from n : 0 <= from -> 0 <= n -> from + n <= p -> from + n <= zlen b ->
  region (overwrite b p d) from n = region b from n.
Proof.
  intros. rewrite <- (region_firstn (overwrite b p d) from n (from + n)) by lia.
  rewrite ow_prefix by lia. apply region_firstn; lia.
Qed.

Lemma region_len b from n : 0 <= from -> 0 <= n -> from + n <= zlen b -> zlen (region b from n) = n.
Proof. intros. unfold region. rewrite zlen_firstn, zlen_skipn by lia. lia. Qed.

(** Writing right after a region extends it. *)
Lemma ow_region_extend b from d1 d2 : 0 <= from -> region b from (zlen d1) = d1 ->
  (d1 = [] \/ from + zlen d1 <= zlen b) ->
  region (overwrite b (from + zlen d1) d2) from (zlen (d1 ++ d2)) = d1 ++ d2.
Proof.
  intros Hf HR HL. destruct d1 as [|x d1].
  { rewrite zlen_nil, Z.add_0_r. cbn [app]. apply ow_region_data. exact Hf. }
  destruct HL as [HL|HL]; [discriminate|]. set (a := x :: d1) in *. pose proof (zlen_nonneg a). pose proof (zlen_nonneg d2).
  rewrite zlen_app. unfold region. rewrite zfirstn_split by lia. rewrite zskipn_zskipn by lia.
  change (region (overwrite b (from + zlen a) d2) from (zlen a) ++ region (overwrite b (from + zlen a) d2) (from + zlen a) (zlen d2) = a ++ d2).
  rewrite ow_region_data by lia. rewrite ow_region_before by lia. now rewrite HR.
Qed.

(** ** Blocks *)
Section Blocks.
Context {F V E : Type}.

(** [m] blocks of [n] frames from the front. *)
Fixpoint blk (m : nat) (n : Z) (l : list F) : list (list F) :=
  match m with O => [] | S m' => zfirstn n l :: blk m' n (zskipn n l) end.

Fixpoint encRun (encB : E -> list F -> res (list Z * E)) (e : E) (blocks : list (list F)) : res (list Z * E) :=
  match blocks with
  | [] => Ok ([], e)
  | b :: blocks' => do (d, e) <- encB e b; do (ds, e) <- encRun encB e blocks'; Ok (d ++ ds, e)
  end.

Lemma encRun_all encB e blocks : rmap fst (encRun encB e blocks) = encodeAll encB e blocks.
Proof.
  revert e. induction blocks as [|b bs IH]; intros e; [reflexivity|]. cbn [encRun encodeAll].
  destruct (encB e b) as [[d e1]| | |]; try reflexivity. cbn [rbind]. rewrite <- IH.
  destruct (encRun encB e1 bs) as [[ds e2]| | |]; reflexivity.
Qed.

Lemma encRun_app encB e a b : encRun encB e (a ++ b) =
  do (d1, e1) <- encRun encB e a; do (d2, e2) <- encRun encB e1 b; Ok (d1 ++ d2, e2).
Proof.
  revert e. induction a as [|x a IH]; intros e.
  - cbn [app encRun rbind]. destruct (encRun encB e b) as [[d2 e2]| | |]; reflexivity.
  - cbn [app encRun]. destruct (encB e x) as [[d e1]| | |]; try reflexivity. cbn [rbind]. rewrite IH.
    destruct (encRun encB e1 a) as [[ds e2]| | |]; try reflexivity. cbn [rbind].
    destruct (encRun encB e2 b) as [[d2 e3]| | |]; try reflexivity. cbn [rbind]. now rewrite app_assoc.
Qed.

Lemma blk_length m n l : zlen (blk m n l) = Z.of_nat m.
Proof. revert l. induction m as [|m IH]; intros l; [reflexivity|]. cbn [blk]. rewrite zlen_cons, IH. lia. Qed.

Lemma blk_app m1 m2 n l1 l2 : 0 <= n -> zlen l1 = n * Z.of_nat m1 -> blk (m1 + m2) n (l1 ++ l2) = blk m1 n l1 ++ blk m2 n l2.
Proof.
  intros Hn. revert l1. induction m1 as [|m1 IH]; intros l1 L.
  - assert (l1 = []) by (destruct l1; [reflexivity|rewrite zlen_cons in L; pose proof (zlen_nonneg l1); lia]). subst. reflexivity.
  - cbn [Nat.add blk app]. rewrite zfirstn_app_l by nia. rewrite zskipn_app_l by nia. rewrite IH; [reflexivity|].
    rewrite zlen_skipn by lia. nia.
Qed.

Lemma blk_forall (P : F -> Prop) m n l : 0 <= n -> n * Z.of_nat m <= zlen l -> Forall P l -> Forall (fun b => zlen b = n /\ Forall P b) (blk m n l).
Proof.
  intros Hn. revert l. induction m as [|m IH]; intros l L HP; [constructor|]. cbn [blk]. constructor.
  - split; [rewrite zlen_firstn by lia; nia|apply Forall_firstn; exact HP].
  - apply IH; [rewrite zlen_skipn by lia; nia|apply Forall_skipn; exact HP].
Qed.

Variable fpp bpp : Z.
Variable encB : E -> list F -> res (list Z * E).
Variable okF : F -> Prop.
Variable okE : E -> Prop.
Hypothesis Hfpp : 0 < fpp.
Hypothesis Hbpp : 0 < bpp.
Hypothesis Henc : forall e b, okE e -> zlen b = fpp -> Forall okF b -> exists d e', encB e b = Ok (d, e') /\ zlen d = bpp /\ okE e'.

Lemma encRun_ok blocks e : okE e -> Forall (fun b => zlen b = fpp /\ Forall okF b) blocks ->
  exists d e', encRun encB e blocks = Ok (d, e') /\ zlen d = bpp * zlen blocks /\ okE e'.
Proof.
  intros He H. revert e He. induction H as [|b bs [Lb Fb] _ IH]; intros e He.
  - exists [], e. split; [reflexivity|]. split; [unfold zlen; cbn [length]; lia|exact He].
  - destruct (Henc e b He Lb Fb) as (d & e1 & E1 & L1 & O1). destruct (IH e1 O1) as (ds & e2 & E2 & L2 & O2).
    exists (d ++ ds), e2. cbn [encRun]. rewrite E1. cbn [rbind]. rewrite E2. cbn [rbind].
    split; [reflexivity|]. rewrite zlen_app, zlen_cons. split; [lia|exact O2].
Qed.


Variable junk : F.

Lemma encodeLoop_run m e buf : fpp * Z.of_nat m <= zlen buf ->
  encodeLoop junk fpp encB m e buf = encRun encB e (blk m fpp (map (unjunk junk) buf)).
Proof using Hfpp.
  clear Hbpp Henc okF okE.
  revert e buf. induction m as [|m IH]; intros e buf L; [reflexivity|]. cbn [encodeLoop blk encRun].
  rewrite slice_ok by nia. cbn [rbind]. rewrite (zskipn_0 0) by lia.
  replace (zfirstn fpp (map (unjunk junk) buf)) with (map (unjunk junk) (zfirstn fpp buf)) by (unfold zfirstn; rewrite firstn_map; reflexivity).
  destruct (encB e (map (unjunk junk) (zfirstn fpp buf))) as [[d e1]| | |]; try reflexivity. cbn [rbind].
  rewrite IH by (rewrite zlen_skipn by lia; nia). unfold zskipn at 1. rewrite <- skipn_map. reflexivity.
Qed.

End Blocks.

Section Cut.
Context {F : Type} (fpp : Z).
Hypothesis Hfpp : 0 < fpp.
(** The last block of [l], or [prev] when there is none. *)
Definition lastb (l prev : list F) : list F := match l with [] => prev | _ => zskipn (zlen l - fpp) l end.

Lemma lastb_len l prev m : zlen prev = fpp -> zlen l = fpp * Z.of_nat m -> zlen (lastb l prev) = fpp.
Proof.
  intros Hp Hl. unfold lastb. destruct l as [|x l]; [exact Hp|]. assert (fpp <= zlen (x :: l)).
  { destruct m; [rewrite zlen_cons in Hl; pose proof (zlen_nonneg l); lia|nia]. }
  rewrite zlen_skipn by lia. lia.
Qed.

Lemma cut_blocks m prev rl pl k : zlen prev = fpp -> zlen rl = fpp * Z.of_nat m -> zlen pl < fpp ->
  (length (rl ++ pl) <= k)%nat ->
  cut k fpp prev (rl ++ pl) = blk m fpp rl ++ match pl with [] => [] | _ => [pl ++ zskipn (zlen pl) (lastb rl prev)] end.
Proof.
  revert prev rl k. induction m as [|m IH]; intros prev rl k Lp Lr Ll Hk.
  - assert (rl = []) by (destruct rl; [reflexivity|rewrite zlen_cons in Lr; pose proof (zlen_nonneg rl); lia]). subst rl.
    cbn [app blk lastb]. destruct pl as [|x pl]; [destruct k; reflexivity|]. destruct k; [cbn in Hk; lia|]. cbn [cut].
    rewrite zfirstn_all by lia. rewrite (zskipn_all fpp) by lia. destruct k; reflexivity.
  - assert (Hr : fpp <= zlen rl) by nia.
    assert (Hne : rl ++ pl <> []) by (destruct rl; [rewrite zlen_nil in Hr; lia|discriminate]).
    destruct k; [destruct (rl ++ pl); [congruence|cbn in Hk; lia]|].
    cbn [cut]. destruct (rl ++ pl) as [|y ys] eqn:Ey; [congruence|]. rewrite <- Ey in *. clear Ey y ys.
    rewrite zfirstn_app_l by lia. rewrite (zskipn_all (zlen (rl ++ pl))) by (rewrite zlen_app; pose proof (zlen_nonneg pl); lia).
    rewrite app_nil_r. rewrite zskipn_app_l by lia. cbn [blk app]. f_equal.
    rewrite (IH (zfirstn fpp rl) (zskipn fpp rl)).
    + assert (El : lastb (zskipn fpp rl) (zfirstn fpp rl) = lastb rl prev).
      { unfold lastb at 2. destruct rl as [|z rl']; [rewrite zlen_nil in Hr; lia|]. set (rl := z :: rl') in *.
        destruct (Z.eq_dec (zlen rl) fpp) as [Eq|Nq].
        - rewrite (zskipn_all fpp) by lia. cbn [lastb]. rewrite zskipn_0 by lia. apply zfirstn_all. lia.
        - unfold lastb. destruct (zskipn fpp rl) as [|w ws] eqn:Ew.
          + assert (zlen (zskipn fpp rl) = 0) by (rewrite Ew; reflexivity). rewrite zlen_skipn in * by lia. lia.
          + rewrite <- Ew. assert (Lm : fpp <= zlen rl - fpp) by (destruct m; nia).
            rewrite zlen_skipn by lia. rewrite zskipn_zskipn by lia. f_equal. lia. }
      rewrite El. reflexivity.
    + rewrite zlen_firstn by lia. lia.
    + rewrite zlen_skipn by lia. nia.
    + exact Ll.
    + unfold zskipn. rewrite app_length, skipn_length in *. unfold zlen in Hr. lia.
Qed.
End Cut.

(** ** Pushing frames *)

(** Where a run of writes starts: file contents, track, encoder, frames waiting in the rebuffering module,
    and the block encoded last. *)
Record base (F E : Type) := mkBase { bB : list Z; bT : wtrack; bE : E; bPend : list F; bPrev : list F }.
Arguments mkBase {F E}. Arguments bB {F E}. Arguments bT {F E}. Arguments bE {F E}. Arguments bPend {F E}. Arguments bPrev {F E}.

(** The track after [n] more frames in [len] more bytes were written to the file and [nv] frames accepted. *)
Definition afterT (t : wtrack) (n len nv : Z) : wtrack :=
  mkWT (w_first t) (w_nextf t + n) (if n =? 0 then w_totalf t else w_nextf t + n) (w_nextpos t + len) (w_after t)
       (w_dsize t + len) (w_nextv t + nv) (w_totalv t + nv) (w_savedpos t) (w_savednext t).

Section Main.
Context {B : Build}.
Context {F V E : Type} (c : wcodec F E) (conv : V -> F) (junk : F) (seekok : bool) (okF : F -> Prop) (okE : E -> Prop).
Hypothesis Hlaw : lawful c okF okE.
Hypothesis Hjunk : okF junk.

Definition goodO (o : option F) : Prop := exists x, o = Some x /\ okF x.

Lemma goodO_map l : Forall goodO (map Some l) <-> Forall okF l.
Proof.
  rewrite Forall_map. split; apply Forall_impl; intros x; unfold goodO; intros H.
  - destruct H as (y & [= ->] & H). exact H.
  - eauto.
Qed.
Lemma map_unjunk l : map (unjunk junk) (map Some l) = l.
Proof. rewrite map_map. cbn. apply map_id. Qed.

(** The sink of the rebuffering module. *)
Definition blockP (fpp bpp : Z) (encB : E -> list F -> res (list Z * E)) (b : base F E) (nv : Z)
    (s : file * wtrack * E) (recv : list (option F)) : Prop :=
  let '(f, t, e) := s in
  exists m d, zlen recv = fpp * Z.of_nat m /\ encRun encB (bE b) (blk m fpp (map (unjunk junk) recv)) = Ok (d, e) /\
    zlen d = bpp * Z.of_nat m /\ okE e /\
    f = mkFile (overwrite (bB b) (w_nextpos (bT b)) d) (w_nextpos (bT b) + zlen d) /\
    t = afterT (bT b) (zlen recv) (zlen d) nv.

Lemma blockPush_takes fpp bpp encB b nv : c = WBlocks fpp bpp encB -> 0 <= w_nextpos (bT b) ->
  takes (blockPush junk fpp bpp encB) (blockP fpp bpp encB b nv) goodO fpp false.
Proof.
  intros Ec Hp [[f t] e] recv outb n (m & d & Lr & Er & Ld & Oe & -> & ->) Hn Hm _ Hl HG.
  pose proof Hlaw as Hlaw'. rewrite Ec in Hlaw'. destruct Hlaw' as (B1 & B2 & Henc). unfold blockPush.
  replace ((fpp <=? 0) || (bpp <=? 0)) with false by lia.
  assert (Hq : n = fpp * (n / fpp)) by (pose proof (Z.div_mod n fpp ltac:(lia)); lia).
  set (k := n / fpp) in *. assert (Hk : 0 < k) by nia. clearbody k.
  replace (Z.quot (n + fpp - 1) fpp) with k.
  2:{ rewrite Z.quot_div_nonneg by lia. apply Z.div_unique with (fpp - 1); lia. }
  rewrite (encodeLoop_run fpp encB B1 junk) by nia.
  set (blocks := blk (Z.to_nat k) fpp (map (unjunk junk) outb)).
  assert (Eb : blocks = blk (Z.to_nat k) fpp (map (unjunk junk) (zfirstn n outb))).
  { unfold blocks. rewrite <- (zfirstn_skipn n outb) at 1. rewrite map_app.
    rewrite <- (Nat.add_0_r (Z.to_nat k)) at 1. rewrite blk_app; [now rewrite app_nil_r|lia|].
    rewrite zlen_map, zlen_firstn by lia. nia. }
  destruct (encRun_ok fpp bpp encB okF okE Henc blocks e Oe) as (d2 & e2 & E2 & L2 & O2).
  { rewrite Eb. apply blk_forall; [lia|rewrite zlen_map, zlen_firstn by lia; nia|].
    apply Forall_map. eapply Forall_impl; [|exact HG]. intros o (x & -> & Hx). exact Hx. }
  rewrite E2. cbn [rbind]. unfold blocks in L2. rewrite blk_length, Z2Nat.id in L2 by lia.
  unfold fmWrite, fwrite, advance, ftell. cbn [fbytes fpos w_first w_nextf w_totalf w_nextpos w_after w_dsize w_nextv w_totalv w_savedpos w_savednext afterT].
  unfold rassert. rewrite (proj2 (Z.eqb_eq _ _)) by lia. cbn [rbind]. eexists. split; [reflexivity|].
  rewrite L2. rewrite (Z.mul_comm bpp k), Z.quot_mul by lia.
  exists (m + Z.to_nat k)%nat, (d ++ d2).
  split; [rewrite zlen_app, zlen_firstn by lia; nia|]. split.
  { rewrite map_app, blk_app by (rewrite ?zlen_map; lia). rewrite encRun_app, Er. cbn [rbind]. rewrite <- Eb, E2. reflexivity. }
  split; [rewrite zlen_app; nia|]. split; [exact O2|]. rewrite ow_app by lia. rewrite zlen_app, zlen_app.
  split; [f_equal; lia|]. unfold afterT. rewrite zlen_firstn by lia. rewrite !(Z.min_l n) by lia.
  pose proof (zlen_nonneg recv).
  replace (zlen recv + n =? 0) with false by lia. f_equal; lia.
Qed.

(** State after the frames [l] were pushed and [nv] were counted. *)
Definition binv (b : base F E) (st : wstate F E) (l : list F) (nv : Z) : Prop :=
  match c with
  | WPerFrame _ bpf enc =>
      let d := concat (map enc l) in
      ws_file st = mkFile (overwrite (bB b) (w_nextpos (bT b)) d) (w_nextpos (bT b) + zlen d) /\
      zlen d = bpf * zlen l /\ ws_track st = afterT (bT b) (zlen l) (zlen d) nv
  | WBlocks fpp bpp encB =>
      exists rl pl, bPend b ++ l = rl ++ pl /\ Forall okF rl /\ Forall okF pl /\
        blockP fpp bpp encB b nv (ws_file st, ws_track st, ws_enc st) (map Some rl) /\
        rebW fpp (ws_reb st) /\ pending (ws_reb st) = map Some pl /\ fpp <= zlen (ws_out st) /\
        zskipn (zlen pl) (map (unjunk junk) (zfirstn fpp (ws_out st))) = zskipn (zlen pl) (lastb fpp rl (bPrev b))
  end.

Lemma concat_enc_len bpf (enc : F -> list Z) l : (forall x, okF x -> zlen (enc x) = bpf) -> Forall okF l -> zlen (concat (map enc l)) = bpf * zlen l.
Proof.
  intros He H. induction H as [|x l Hx _ IH]; [unfold zlen; cbn [concat map length]; lia|].
  cbn [map concat]. rewrite zlen_app, zlen_cons, IH, (He x Hx). lia.
Qed.

Lemma userPush_ok b st l nv chunk : 0 <= w_nextpos (bT b) -> binv b st l nv -> Forall okF (map conv chunk) -> chunk <> [] ->
  exists st', userPush c conv junk seekok st chunk = Ok st' /\ binv b st' (l ++ map conv chunk) nv.
Proof.
  intros Hp I Hc Hne. unfold userPush. pose proof Hlaw as Hlaw'. unfold binv in I |- *. pose proof blockPush_takes as HTk.
  destruct c as [isPCM bpf enc|fpp bpp encB] eqn:Ec.
  - destruct Hlaw' as (B1 & Henc). destruct I as (If & Il & It). unfold perFramePush. replace (bpf <=? 0) with false by lia.
    assert (Ln : zlen (concat (map enc (map conv chunk))) = bpf * zlen chunk).
    { rewrite (concat_enc_len bpf enc _ Henc Hc), zlen_map. reflexivity. }
    assert (Hz : 0 < zlen chunk) by (destruct chunk; [congruence|rewrite zlen_cons; pose proof (zlen_nonneg chunk); lia]).
    set (d2 := concat (map enc (map conv chunk))) in *.
    unfold fmWrite, fwrite, ftell, advance. rewrite If, It.
    cbn [fbytes fpos w_first w_nextf w_totalf w_nextpos w_after w_dsize w_nextv w_totalv w_savedpos w_savednext afterT].
    unfold rassert. rewrite (proj2 (Z.eqb_eq _ _)) by lia. rewrite orb_true_r. cbn [rbind].
    eexists. split; [reflexivity|]. cbn [ws_file ws_track]. rewrite map_app, concat_app. fold d2.
    rewrite ow_app by lia. rewrite !zlen_app. split; [f_equal; lia|]. rewrite zlen_map. split; [lia|].
    rewrite Ln. rewrite (Z.mul_comm bpf (zlen chunk)), Z.quot_mul by lia. unfold afterT. pose proof (zlen_nonneg l).
    replace (zlen l + zlen chunk =? 0) with false by lia. f_equal; lia.
  - destruct Hlaw' as (B1 & B2 & Henc). destruct I as (rl & pl & El & Fr & Fp & HP & HW & Pd & Ho & St).
    destruct (rebPush_ok (blockPush junk fpp bpp encB) (blockP fpp bpp encB b nv) goodO fpp false B1
               (HTk fpp bpp encB b nv eq_refl Hp) (length chunk) (ws_reb st) (ws_out st) (ws_file st, ws_track st, ws_enc st)
               (map Some (map conv chunk)) (map Some rl)) as (r' & outb' & s' & recv' & E1 & W' & P' & Lo & Eq & Md & Sh); auto.
    { rewrite Pd. apply goodO_map. exact Fp. } { apply goodO_map. exact Hc. }
    { rewrite !zlen_map. unfold zlen. lia. }
    rewrite E1. cbn [rbind]. destruct s' as [[f' t'] e']. eexists. split; [reflexivity|].
    cbn [ws_file ws_track ws_enc ws_reb ws_out].
    rewrite Pd, <- !map_app in Eq.
    assert (Spl : exists rl' pl', recv' = map Some rl' /\ pending r' = map Some pl' /\ rl' ++ pl' = rl ++ pl ++ map conv chunk).
    { clear -Eq. assert (G : forall (a b : list (option F)) w, a ++ b = map Some w -> exists a' b', a = map Some a' /\ b = map Some b' /\ a' ++ b' = w).
      { induction a as [|x a IH]; intros b w H.
        - exists [], w. auto.
        - destruct w as [|y w]; [discriminate|]. cbn in H. injection H as -> H. destruct (IH b w H) as (a' & b' & -> & -> & <-).
          exists (y :: a'), b'. auto. }
      apply G in Eq. exact Eq. }
    destruct Spl as (rl' & pl' & -> & Pd' & Eq'). exists rl', pl'.
    assert (FF : Forall okF (rl' ++ pl')) by (rewrite Eq'; apply Forall_app; split; [exact Fr|apply Forall_app; auto]).
    apply Forall_app in FF. destruct FF as [FF1 FF2].
    split; [rewrite app_assoc, El, <- app_assoc; auto|]. split; [exact FF1|]. split; [exact FF2|]. split; [exact P'|].
    split; [exact W'|]. split; [exact Pd'|]. split; [lia|].
    destruct (Sh eq_refl) as [[-> Er]|[Hge Hst]].
    + assert (rl' = rl). { apply (f_equal (map (unjunk junk))) in Er. rewrite !map_unjunk in Er. exact Er. } subst rl'.
      apply app_inv_head in Eq'. subst pl'.
      rewrite zlen_app. pose proof (zlen_nonneg pl). pose proof (zlen_nonneg (map conv chunk)).
      rewrite <- !(zskipn_zskipn (zlen (map conv chunk)) (zlen pl)) by lia. now rewrite St.
    + rewrite Hst. rewrite !zlen_map in *. unfold lastb. destruct rl' as [|x rl'].
      { rewrite zlen_nil in Hge. pose proof (zlen_nonneg rl). lia. }
      f_equal. unfold zskipn. rewrite skipn_map, map_unjunk. reflexivity.
Qed.

Lemma binv_setnv b st l nv n : binv b st l nv ->
  let t := ws_track st in
  binv b (wsetTrack st (mkWT (w_first t) (w_nextf t) (w_totalf t) (w_nextpos t) (w_after t) (w_dsize t)
                              (w_nextv t + n) (w_totalv t + n) (w_savedpos t) (w_savednext t))) l (nv + n).
Proof.
  cbv zeta. unfold binv, wsetTrack. destruct c as [isPCM bpf enc|fpp bpp encB]; cbn [ws_file ws_track ws_enc ws_reb ws_out].
  - intros (H1 & H2 & H3). split; [exact H1|]. split; [exact H2|]. rewrite H3. unfold afterT. cbn [w_first w_nextf w_totalf w_nextpos w_after w_dsize w_nextv w_totalv w_savedpos w_savednext]. f_equal; lia.
  - intros (rl & pl & A1 & A2 & A3 & (m & d & P1 & P2 & P3 & P4 & P5 & P6) & A4). exists rl, pl.
    split; [exact A1|]. split; [exact A2|]. split; [exact A3|]. split; [|exact A4]. exists m, d.
    split; [exact P1|]. split; [exact P2|]. split; [exact P3|]. split; [exact P4|]. split; [exact P5|]. rewrite P6.
    unfold afterT. cbn [w_first w_nextf w_totalf w_nextpos w_after w_dsize w_nextv w_totalv w_savedpos w_savednext]. f_equal; lia.
Qed.

Definition wseeked (st : wstate F E) : wstate F E :=
  if seekok then wsetFile st (fseek (ws_file st) (w_nextpos (ws_track st))) else st.

Lemma binv_pos b st l nv : binv b st l nv -> fpos (ws_file st) = w_nextpos (ws_track st).
Proof.
  unfold binv. destruct c as [isPCM bpf enc|fpp bpp encB].
  - intros (-> & H2 & ->). reflexivity.
  - intros (rl & pl & A1 & A2 & A3 & (m & d & P1 & P2 & P3 & P4 & -> & ->) & A4). reflexivity.
Qed.
Lemma binv_seeked b st l nv : binv b st l nv -> wseeked st = st.
Proof.
  intros H. apply binv_pos in H. unfold wseeked. destruct seekok; [|reflexivity]. unfold wsetFile, fseek. rewrite <- H.
  destruct st as [[fb fp] t e r o]. reflexivity.
Qed.

Lemma writeLoop_ok b fuel : 0 <= w_nextpos (bT b) -> forall st l nv samples v, Forall okF (map conv samples) ->
  binv b st (l ++ map conv (zfirstn v samples)) nv -> 0 <= v <= zlen samples -> zlen samples - v < Z.of_nat fuel ->
  exists st', writeLoop c conv junk seekok fuel st samples v (zlen samples) = Ok (st', zlen samples) /\
    binv b st' (l ++ map conv samples) nv.
Proof.
  intros Hp. induction fuel as [|fuel IH]; intros st l nv samples v Hs I Hv Hf; [lia|].
  cbn [writeLoop]. destruct (Z.ltb_spec v (zlen samples)) as [Hlt|Hge]; cbn [negb].
  - set (count := if v <=? zlen samples - ATOMIC then ATOMIC else zlen samples - v).
    assert (Hc : 0 < count <= zlen samples - v) by (unfold count, ATOMIC; destruct (Z.leb_spec v (zlen samples - 1024)); lia).
    clearbody count. rewrite slice_ok by lia. cbn [rbind].
    destruct (userPush_ok b st (l ++ map conv (zfirstn v samples)) nv (zfirstn count (zskipn v samples)) Hp I) as (st1 & E1 & I1).
    { rewrite <- (zfirstn_skipn v samples), map_app in Hs. apply Forall_app in Hs. destruct Hs as [_ Hs].
      rewrite <- (zfirstn_skipn count (zskipn v samples)), map_app in Hs. apply Forall_app in Hs. tauto. }
    { intros E0. apply (f_equal (@zlen V)) in E0. rewrite zlen_nil in E0. rewrite zlen_firstn, zlen_skipn in E0 by lia. lia. }
    rewrite E1. cbn [rbind]. apply (IH st1 l nv samples (v + count)); auto; try lia.
    rewrite <- app_assoc, <- map_app, <- zfirstn_split in I1 by lia. exact I1.
  - replace v with (zlen samples) in * by lia. exists st. split; [reflexivity|]. rewrite zfirstn_all in I by lia. exact I.
Qed.

Lemma afWriteFrames_ok b st l nv samples : 0 <= w_nextpos (bT b) -> binv b (wseeked st) l nv -> Forall okF (map conv samples) ->
  exists st', afWriteFrames c conv junk seekok st samples = Ok (zlen samples, st') /\ binv b st' (l ++ map conv samples) (nv + zlen samples).
Proof.
  intros Hp I Hs. unfold afWriteFrames. fold (wseeked st). pose proof (zlen_nonneg samples).
  destruct (writeLoop_ok b (Z.to_nat (zlen samples) + 1) Hp (wseeked st) l nv samples 0 Hs) as (st1 & E1 & I1); try lia.
  { rewrite zfirstn_0 by lia. cbn [map]. rewrite app_nil_r. exact I. }
  rewrite E1. cbn [rbind]. eexists. split; [reflexivity|]. apply (binv_setnv b st1 _ nv). exact I1.
Qed.

(** *** Syncing *)

(** The completed last block. *)
Definition partBlock (fpp : Z) (b : base F E) (rl pl : list F) : list (list F) :=
  match pl with [] => [] | _ => [pl ++ zskipn (zlen pl) (lastb fpp rl (bPrev b))] end.

Definition synced (b : base F E) (l : list F) (nv : Z) (st : wstate F E) : Prop :=
  let p := w_nextpos (bT b) in
  match c with
  | WPerFrame _ bpf enc =>
      let d := concat (map enc l) in
      zlen d = bpf * zlen l /\
      ws_file st = mkFile (overwrite (bB b) p d) (p + zlen d) /\
      ws_track st = mkWT (w_first (bT b)) (w_nextf (bT b) + zlen l) (if zlen l =? 0 then w_totalf (bT b) else w_nextf (bT b) + zlen l)
        (p + zlen d) (p + zlen d) (w_dsize (bT b) + zlen d) (w_nextv (bT b) + nv) (w_totalv (bT b) + nv) (p + zlen d) (w_nextf (bT b) + zlen l)
  | WBlocks fpp bpp encB =>
      exists rl pl m d e dp,
        bPend b ++ l = rl ++ pl /\ Forall okF rl /\ Forall okF pl /\ zlen rl = fpp * Z.of_nat m /\ zlen pl < fpp /\
        encRun encB (bE b) (blk m fpp rl) = Ok (d, e) /\ encRun encB e (partBlock fpp b rl pl) = Ok (dp, ws_enc st) /\ okE (ws_enc st) /\
        zlen d = bpp * Z.of_nat m /\ zlen dp = bpp * zlen (partBlock fpp b rl pl) /\
        ws_file st = mkFile (overwrite (bB b) p (d ++ dp)) (p + zlen (d ++ dp)) /\
        ws_track st = mkWT (w_first (bT b)) (w_nextf (bT b) + zlen rl) (w_nextf (bT b) + zlen rl + zlen pl)
          (p + zlen d) (p + zlen (d ++ dp)) (w_dsize (bT b) + zlen (d ++ dp)) (w_nextv (bT b) + nv) (w_totalv (bT b) + nv)
          (p + zlen d) (w_nextf (bT b) + zlen rl) /\
        rebW fpp (ws_reb st) /\ pending (ws_reb st) = map Some pl /\ fpp <= zlen (ws_out st) /\
        zskipn (zlen pl) (map (unjunk junk) (zfirstn fpp (ws_out st))) = zskipn (zlen pl) (lastb fpp rl (bPrev b))
  end.

(** What PCM keeps in an int. *)
Definition fitsInt (b : base F E) (l : list F) : Prop :=
  match c with
  | WPerFrame true bpf _ => 0 <= w_nextf (bT b) /\ w_nextpos (bT b) + bpf * zlen l < 2 ^ 31 /\ w_nextf (bT b) + zlen l < 2 ^ 31
  | _ => True
  end.

Lemma map_zfirstn {X Y} (f : X -> Y) n l : map f (zfirstn n l) = zfirstn n (map f l).
Proof. unfold zfirstn. now rewrite firstn_map. Qed.
Lemma map_zskipn {X Y} (f : X -> Y) n l : map f (zskipn n l) = zskipn n (map f l).
Proof. unfold zskipn. now rewrite skipn_map. Qed.

Lemma modulesSync_ok b st l nv : 0 <= w_nextpos (bT b) -> zlen (bPrev b) = match c with WBlocks fpp _ _ => fpp | _ => zlen (bPrev b) end ->
  Forall okF (bPrev b) -> okE (bE b) -> fitsInt b l -> binv b st l nv ->
  exists st', modulesSync c junk seekok st = Ok st' /\ synced b l nv st'.
Proof.
  intros Hp Hprev Fprev HE Hfit I. pose proof (binv_pos b st l nv I) as Hpos. unfold modulesSync, fileSync1, fileSync2, synced.
  pose proof Hlaw as Hlaw'. unfold binv in I. unfold fitsInt in Hfit.
  destruct c as [isPCM bpf enc|fpp bpp encB] eqn:Ec.
  - destruct I as (If & Il & It). unfold ftell, rassert.
    rewrite Hpos, It. cbn [w_first w_nextf w_totalf w_nextpos w_after w_dsize w_nextv w_totalv w_savedpos w_savednext afterT].
    rewrite Z.eqb_refl, orb_true_r. cbn [rbind]. eexists. split; [reflexivity|]. unfold wsetTrack. cbn [ws_file ws_track].
    split; [exact Il|]. split; [exact If|]. pose proof (zlen_nonneg l) as Ll. destruct Hlaw' as (B1 & _).
    assert (Hn : isPCM = false \/ (isPCM = true /\ 0 <= w_nextf (bT b) /\ w_nextpos (bT b) + bpf * zlen l < 2 ^ 31 /\ w_nextf (bT b) + zlen l < 2 ^ 31))
      by (destruct isPCM; auto). clear Hfit.
    destruct Hn as [->|(-> & h1 & h2 & h3)]; [reflexivity|].
    assert (Hm : 0 <= bpf * zlen l) by nia. rewrite <- Il in *. set (q := zlen (concat (map enc l))) in *. clearbody q.
    unfold s32. rewrite !sN_small by (cbn [Z.sub Z.opp Z.add Z.pos_sub Pos.pred_double]; lia). reflexivity.
  - destruct I as (rl & pl & El & Fr & Fp & (m & d & P1 & P2 & P3 & P4 & P5 & P6) & HW & Pd & Ho & St).
    destruct Hlaw' as (B1 & B2 & Henc). destruct HW as [Wb Wo].
    rewrite map_unjunk in P2. rewrite zlen_map in P1, P6.
    assert (Lpl : zlen pl = r_offset (ws_reb st)).
    { rewrite <- (zlen_map (@Some F)), <- Pd. unfold pending. rewrite zlen_firstn by lia. lia. }
    unfold rebSync1, offsetOkPush, rassert at 1. replace ((0 <=? r_offset (ws_reb st)) && (r_offset (ws_reb st) <? fpp)) with true by lia. cbn [rbind].
    unfold rebSync2. cbn [r_offset r_buffer r_saved r_savedOffset r_eof r_sent]. unfold offsetOkPush.
    replace ((0 <=? r_offset (ws_reb st)) && (r_offset (ws_reb st) <? fpp)) with true by lia. unfold rassert at 1. cbn [rbind].
    rewrite slice_ok by lia. cbn [rbind]. rewrite (zskipn_0 0) by lia.
    change (zfirstn (r_offset (ws_reb st)) (r_buffer (ws_reb st))) with (pending (ws_reb st)). rewrite Pd.
    rewrite blit_ok by (rewrite ?zlen_map; lia). cbn [rbind]. rewrite Z.add_0_l, (zfirstn_0 0) by lia. cbn [app]. rewrite zlen_map.
    set (out' := map Some pl ++ zskipn (zlen pl) (ws_out st)).
    assert (Lo : zlen out' = zlen (ws_out st)) by (unfold out'; rewrite zlen_app, zlen_map, zlen_skipn; lia).
    assert (Eo : map (unjunk junk) (zfirstn fpp out') = pl ++ zskipn (zlen pl) (lastb fpp rl (bPrev b))).
    { unfold out'. rewrite zfirstn_app_r by (rewrite zlen_map; lia). rewrite map_app, map_unjunk, zlen_map. f_equal.
      rewrite <- St. rewrite map_zfirstn, !map_zskipn, map_zfirstn. unfold zfirstn, zskipn.
      rewrite skipn_firstn_comm. f_equal. lia. }
    assert (Lb : zlen (lastb fpp rl (bPrev b)) = fpp) by (eapply lastb_len; eauto).
    assert (Fb : Forall okF (lastb fpp rl (bPrev b))).
    { unfold lastb. destruct rl; [exact Fprev|apply Forall_skipn; exact Fr]. }
    unfold blockPush. replace ((fpp <=? 0) || (bpp <=? 0)) with false by lia.
    set (k := Z.quot (r_offset (ws_reb st) + fpp - 1) fpp).
    assert (Hk : k = match pl with [] => 0 | _ => 1 end).
    { unfold k. rewrite <- Lpl, Z.quot_div_nonneg by (pose proof (zlen_nonneg pl); lia). destruct pl as [|x pl].
      - rewrite zlen_nil. apply Z.div_small. lia.
      - rewrite <- Lpl in Wo. rewrite zlen_cons in *. pose proof (zlen_nonneg pl). symmetry. apply Z.div_unique with (zlen pl); lia. }
    assert (Hblk : blk (Z.to_nat k) fpp (map (unjunk junk) out') = partBlock fpp b rl pl).
    { rewrite Hk. unfold partBlock. destruct pl as [|x pl]; [reflexivity|]. change (Z.to_nat 1) with 1%nat. cbn [blk].
      rewrite <- map_zfirstn, Eo. reflexivity. }
    rewrite (encodeLoop_run fpp encB B1 junk) by (rewrite Hk; destruct pl; lia). rewrite Hblk.
    destruct (encRun_ok fpp bpp encB okF okE Henc (partBlock fpp b rl pl) (ws_enc st) P4) as (dp & e2 & E2 & L2 & O2).
    { unfold partBlock. destruct pl as [|x pl]; constructor; [|constructor]. split.
      - rewrite zlen_app, zlen_skipn by lia. lia.
      - apply Forall_app. split; [exact Fp|apply Forall_skipn; exact Fb]. }
    rewrite E2. cbn [rbind]. unfold fmWrite, fwrite, advance, ftell. rewrite P5, P6.
    cbn [fbytes fpos w_first w_nextf w_totalf w_nextpos w_after w_dsize w_nextv w_totalv w_savedpos w_savednext afterT].
    rewrite (proj2 (Z.eqb_eq _ _)) by lia. unfold rassert. cbn [rbind].
    replace ((0 <=? r_offset (ws_reb st)) && (r_offset (ws_reb st) <? fpp)) with true by lia. cbn [rbind].
    cbn [fbytes fpos w_first w_nextf w_totalf w_nextpos w_after w_dsize w_nextv w_totalv w_savedpos w_savednext].
    rewrite (proj2 (Z.eqb_eq _ _)) by lia. rewrite orb_true_r. cbn [rbind].
    eexists. split; [reflexivity|]. cbn [ws_file ws_track ws_enc ws_reb ws_out].
    exists rl, pl, m, d, (ws_enc st), dp.
    split; [exact El|]. split; [exact Fr|]. split; [exact Fp|]. split; [exact P1|]. split; [lia|]. split; [exact P2|].
    split; [exact E2|]. split; [exact O2|]. split; [exact P3|]. split; [exact L2|].
    rewrite ow_app by lia. rewrite !zlen_app. split; [f_equal; lia|].
    assert (Hmin : Z.min (Z.quot (zlen dp) bpp * fpp) (r_offset (ws_reb st)) = zlen pl).
    { rewrite L2. rewrite (Z.mul_comm bpp), Z.quot_mul by lia. unfold partBlock. rewrite <- Lpl. destruct pl as [|x pl].
      - change (zlen (@nil (list F))) with 0. change (zlen (@nil F)) with 0. lia.
      - rewrite (zlen_cons ((x :: pl) ++ _) []). change (zlen (@nil (list F))) with 0. lia. }
    rewrite Hmin. split.
    { f_equal; lia. }
    split; [split; cbn [r_buffer r_offset]; lia|]. split; [unfold pending; cbn [r_buffer r_offset]; exact Pd|]. split; [lia|].
    rewrite Eo. rewrite zskipn_app_r by lia. apply zskipn_0. lia.
Qed.

(** The state to which the next writes are relative. *)
Lemma synced_base b l nv st upd : seekok = true -> 0 <= w_nextpos (bT b) -> synced b l nv st ->
  exists b', binv b' (wseeked (wsetFile st (upd (ws_file st) (ws_track st)))) [] 0 /\
    bB b' = fbytes (upd (ws_file st) (ws_track st)) /\ bT b' = ws_track st /\ bE b' = ws_enc st /\
    match c with
    | WPerFrame _ _ _ => True
    | WBlocks fpp bpp encB => exists rl m d e dp,
        bPend b ++ l = rl ++ bPend b' /\ Forall okF rl /\ Forall okF (bPend b') /\ zlen rl = fpp * Z.of_nat m /\ zlen (bPend b') < fpp /\
        encRun encB (bE b) (blk m fpp rl) = Ok (d, e) /\ encRun encB e (partBlock fpp b rl (bPend b')) = Ok (dp, ws_enc st) /\ okE (ws_enc st) /\
        zlen d = bpp * Z.of_nat m /\ zlen dp = bpp * zlen (partBlock fpp b rl (bPend b')) /\
        ws_file st = mkFile (overwrite (bB b) (w_nextpos (bT b)) (d ++ dp)) (w_nextpos (bT b) + zlen (d ++ dp)) /\
        ws_track st = mkWT (w_first (bT b)) (w_nextf (bT b) + zlen rl) (w_nextf (bT b) + zlen rl + zlen (bPend b'))
          (w_nextpos (bT b) + zlen d) (w_nextpos (bT b) + zlen (d ++ dp)) (w_dsize (bT b) + zlen (d ++ dp)) (w_nextv (bT b) + nv) (w_totalv (bT b) + nv)
          (w_nextpos (bT b) + zlen d) (w_nextf (bT b) + zlen rl) /\
        bPrev b' = lastb fpp rl (bPrev b)
    end.
Proof.
  intros Hs Hp Sy. unfold synced in Sy. unfold binv, wseeked. rewrite Hs.
  destruct c as [isPCM bpf enc|fpp bpp encB] eqn:Ec.
  - exists (mkBase (fbytes (upd (ws_file st) (ws_track st))) (ws_track st) (ws_enc st) [] []). cbn [bB bT bE bPend bPrev map concat].
    split; [|auto]. split; [unfold wsetFile, fseek; cbn [ws_file ws_track]; f_equal; rewrite zlen_nil; lia|].
    split; [unfold zlen; cbn; lia|]. unfold wsetFile. cbn [ws_track]. rewrite ?(@zlen_nil F), ?(@zlen_nil Z), ?(@zlen_nil (option F)). unfold afterT. rewrite Z.eqb_refl.
    destruct (ws_track st). cbn. f_equal; lia.
  - destruct Sy as (rl & pl & m & d & e & dp & El & Fr & Fp & Lr & Lp & R1 & R2 & Oe & Ld & Ldp & Ef & Et & HW & Pd & Ho & St).
    exists (mkBase (fbytes (upd (ws_file st) (ws_track st))) (ws_track st) (ws_enc st) pl (lastb fpp rl (bPrev b))). cbn [bB bT bE bPend bPrev].
    split; [|split; [reflexivity|]; split; [reflexivity|]; split; [reflexivity|]; exists rl, m, d, e, dp; auto 20].
    exists [], pl. cbn [app]. split; [now rewrite app_nil_r|]. split; [constructor|]. split; [exact Fp|]. split.
    + exists O, []. cbn [map blk encRun bE bB bT]. unfold wsetFile, fseek. cbn [ws_file ws_track ws_enc fbytes]. rewrite ?(@zlen_nil F), ?(@zlen_nil Z), ?(@zlen_nil (option F)).
      split; [lia|]. split; [reflexivity|]. split; [lia|]. split; [exact Oe|]. split; [rewrite ow_nil; f_equal; lia|].
      unfold afterT. rewrite Z.eqb_refl. destruct (ws_track st). cbn. f_equal; lia.
    + unfold wsetFile. cbn [ws_reb ws_out lastb bPrev]. split; [exact HW|]. split; [exact Pd|]. split; [exact Ho|exact St].
Qed.
End Main.
