(** Proofs about [Reader]. *)
From Verif Require Import Prelude PreludeFacts FileIO Rebuffer RebufferSpec RebufferProofs Reader ReaderSpec.

(** ** Pieces of bytes *)
Lemma chunksOf_length n k : forall l, length (chunksOf n k l) = n.
Proof. induction n; intros; cbn; auto. Qed.

Lemma chunksOf_app a : forall b k l, 0 <= k -> chunksOf (a + b) k l = chunksOf a k l ++ chunksOf b k (zskipn (Z.of_nat a * k) l).
Proof.
  induction a; intros b k l Hk.
  - cbn [chunksOf Nat.add app]. rewrite zskipn_0 by lia. reflexivity.
  - cbn [chunksOf Nat.add app]. rewrite IHa by lia. rewrite zskipn_zskipn by lia. do 4 f_equal. lia.
Qed.

Lemma chunksOf_firstn n : forall k l m, 0 <= k -> Z.of_nat n * k <= m -> chunksOf n k (zfirstn m l) = chunksOf n k l.
Proof.
  induction n; intros k l m Hk Hm; cbn [chunksOf]; [reflexivity|].
  f_equal.
  - rewrite zfirstn_zfirstn. f_equal. lia.
  - replace (zskipn k (zfirstn m l)) with (zfirstn (m - k) (zskipn k l)); [apply IHn; lia|].
    unfold zskipn, zfirstn. rewrite skipn_firstn_comm. f_equal. lia.
Qed.

Lemma zlen_chunk_frames {A} (blocks : list (list A)) n : Forall (fun b => zlen b = n) blocks ->
  zlen (concat blocks) = n * zlen blocks.
Proof. induction 1; [cbn; lia|]. cbn [concat]. rewrite zlen_app, zlen_cons, IHForall. lia. Qed.

Lemma rmapM_app {A B} (f : A -> res B) l1 l2 r : rmapM f (l1 ++ l2) = Ok r ->
  exists r1 r2, rmapM f l1 = Ok r1 /\ rmapM f l2 = Ok r2 /\ r = r1 ++ r2 /\ length r1 = length l1.
Proof.
  revert r. induction l1 as [|x l1 IH]; intros r H; cbn in *.
  - eauto 10.
  - apply rbind_Ok in H as (y & Ey & H). apply rbind_Ok in H as (ys & Eys & H). inversion H; subst.
    destruct (IH _ Eys) as (r1 & r2 & E1 & E2 & -> & L). rewrite Ey. cbn [rbind]. rewrite E1. cbn [rbind].
    exists (y :: r1), r2. cbn. auto.
Qed.

Lemma rmapM_length {A B} (f : A -> res B) l : forall r, rmapM f l = Ok r -> length r = length l.
Proof.
  induction l; intros r H; cbn in *; [inversion H; auto|].
  apply rbind_Ok in H as (y & _ & H). apply rbind_Ok in H as (ys & Eys & H). inversion H; subst. cbn. f_equal. auto.
Qed.

Lemma zskipn_concat {A} (blocks : list (list A)) n k : 0 <= n -> Forall (fun b => zlen b = n) blocks ->
  zskipn (n * Z.of_nat k) (concat blocks) = concat (skipn k blocks).
Proof.
  intros Hn H. revert k. induction H as [|b bs Hb Hbs IH]; intros k.
  - rewrite skipn_nil. cbn. unfold zskipn. apply skipn_nil.
  - destruct k; cbn [skipn].
    + rewrite zskipn_0 by lia. reflexivity.
    + cbn [concat]. rewrite zskipn_app_r by nia. rewrite <- (IH k). f_equal. nia.
Qed.

Lemma zfirstn_concat {A} (blocks : list (list A)) n k : 0 <= n -> Forall (fun b => zlen b = n) blocks ->
  zfirstn (n * Z.of_nat k) (concat blocks) = concat (firstn k blocks).
Proof.
  intros Hn H. revert k. induction H as [|b bs Hb Hbs IH]; intros k.
  - rewrite firstn_nil. cbn. unfold zfirstn. apply firstn_nil.
  - destruct k; cbn [firstn].
    + rewrite zfirstn_0 by lia. reflexivity.
    + cbn [concat]. rewrite zfirstn_app_r by nia. rewrite <- (IH k). do 2 f_equal. nia.
Qed.

Lemma fread_ok f n : 0 <= n -> 0 <= fpos f -> fpos f + n <= zlen (fbytes f) ->
  fread f n = (zfirstn n (zskipn (fpos f) (fbytes f)), mkFile (fbytes f) (fpos f + n)) /\
  zlen (zfirstn n (zskipn (fpos f) (fbytes f))) = n.
Proof.
  intros. assert (L : zlen (zfirstn n (zskipn (fpos f) (fbytes f))) = n) by (rewrite zlen_firstn, zlen_skipn by lia; lia).
  split; [unfold fread; now rewrite L|exact L].
Qed.

Section Proofs.
Context {B : Build}.
Context {F V : Type} (c : codec F) (conv : F -> V) (hasConv seekok : bool) (bytes : list Z) (first total : Z).

(** Everything the file module can deliver; at least [total] frames. *)
Definition streamOf (stream : list F) : Prop :=
  0 <= first /\ 0 <= total <= zlen stream /\
  match c with
  | PerFrame _ bpf dec => 0 < bpf /\ first + bpf * total <= zlen bytes /\ zlen stream = total /\
      stream = map dec (chunksOf (Z.to_nat total) bpf (zskipn first bytes))
  | Blocks fpp bpp decB => 0 < fpp /\ 0 < bpp /\ exists nblocks blocks, first + bpp * Z.of_nat nblocks <= zlen bytes /\
      rmapM decB (chunksOf nblocks bpp (zskipn first bytes)) = Ok blocks /\
      Forall (fun b => zlen b = fpp) blocks /\ stream = concat blocks
  end.

Lemma holds_stream frames : holds c bytes first total frames -> exists stream, streamOf stream /\ frames = zfirstn total stream.
Proof.
  intros (H1 & H2 & H3). unfold streamOf. destruct c as [isPCM bpf dec|fpp bpp decB].
  - destruct H3 as (Bp & L & ->). set (s := map dec (chunksOf (Z.to_nat total) bpf (zskipn first bytes))).
    assert (Ls : zlen s = total) by (unfold s; rewrite zlen_map; unfold zlen; rewrite chunksOf_length; lia).
    exists s. split; [|now rewrite zfirstn_all by lia]. split; [lia|]. split; [lia|]. auto.
  - destruct H3 as (B1 & B2 & nb & blocks & L & E & A & T & ->). exists (concat blocks). split; [|reflexivity].
    assert (Lc : zlen (concat blocks) = fpp * Z.of_nat nb).
    { rewrite (zlen_chunk_frames _ fpp A). apply rmapM_length in E. rewrite chunksOf_length in E. unfold zlen. now rewrite E. }
    split; [lia|]. split; [lia|]. split; [lia|]. split; [lia|]. exists nb, blocks. auto.
Qed.

Variable stream : list F.
Hypothesis HS : streamOf stream.

(** Fields a pull leaves alone. *)
Definition frozen (t t' : rtrack) : Prop :=
  t_first t' = t_first t /\ t_totalf t' = t_totalf t /\ t_ignore t' = t_ignore t /\ t_nextv t' = t_nextv t /\
  t_totalv t' = t_totalv t /\ t_happy t' = t_happy t.

Lemma frozen_refl t : frozen t t.
Proof. unfold frozen. auto 10. Qed.
Lemma frozen_trans t t' t'' : frozen t t' -> frozen t' t'' -> frozen t t''.
Proof. unfold frozen. intuition congruence. Qed.

(** The file module of a block codec stands for the rest of the stream. *)
Definition blockR (fpp bpp : Z) (t0 : rtrack) (s : file * rtrack) (srem : list (option F)) : Prop :=
  let '(f, t) := s in
  fbytes f = bytes /\ exists k : nat, fpos f = first + bpp * Z.of_nat k /\ t_nextpos t = fpos f /\
    fpp * Z.of_nat k <= zlen stream /\ srem = map Some (zskipn (fpp * Z.of_nat k) stream) /\ frozen t0 t /\
    t_nextf t = fpp * Z.of_nat k.

(** The state stands for the stream from frame [p] on. *)
Definition at_ (st : rstate F) (p : Z) : Prop :=
  match c with
  | PerFrame isPCM bpf dec =>
      fbytes (rs_file st) = bytes /\ 0 <= p <= total /\ t_nextf (rs_track st) = p /\ t_totalf (rs_track st) = total /\
      t_nextpos (rs_track st) = first + bpf * p /\ fpos (rs_file st) = t_nextpos (rs_track st)
  | Blocks fpp bpp decB =>
      0 <= p <= zlen stream /\
      rebR (blockR fpp bpp (rs_track st)) fpp (rs_reb st) (rs_file st, rs_track st) (map Some (zskipn p stream))
  end.

Lemma blockPull_serves isnil fpp bpp decB t0 : c = Blocks fpp bpp decB -> isnil = false ->
  serves isnil false fpp (blockPull fpp bpp decB) (blockR fpp bpp t0).
Proof.
  intros Ec -> [f t] srem n (Hb & k & Hp & Hn & Hk & -> & Hf & Hnf) Hpos Hmod _ Hlim.
  destruct HS as (F1 & F2 & F3). rewrite Ec in F3. destruct F3 as (B1 & B2 & nb & blocks & L & E & A & Es).
  assert (Lb : length blocks = nb) by (apply rmapM_length in E; rewrite chunksOf_length in E; exact E).
  assert (Lc : zlen stream = fpp * Z.of_nat nb).
  { rewrite Es, (zlen_chunk_frames _ fpp A). unfold zlen. now rewrite Lb. }
  destruct Hlim as [Hlim|Hlim]; [discriminate|].
  apply Z.mod_divide in Hmod; [|lia]. destruct Hmod as (m & ->).
  rewrite zlen_map, zlen_skipn in Hlim by lia.
  assert (Hm : 0 < m) by nia.
  assert (Hkm : Z.of_nat k + m <= Z.of_nat nb) by nia.
  set (mn := Z.to_nat m). assert (Emn : m = Z.of_nat mn) by (unfold mn; lia).
  unfold blockPull. replace ((fpp <=? 0) || (bpp <=? 0)) with false by lia.
  unfold rassert at 1. rewrite Z.rem_mul by lia. cbn [Z.eqb rbind].
  rewrite Z.quot_mul by lia.
  destruct (fread_ok f (bpp * m)) as [Er Lr]; [nia|nia|rewrite Hb; nia|]. rewrite Er. cbn [rbind].
  rewrite Lr. replace (bpp * m ÷ bpp) with m by (rewrite Z.mul_comm, Z.quot_mul; lia).
  rewrite Hb. fold mn.
  assert (Ech : chunksOf mn bpp (zfirstn (bpp * m) (zskipn (fpos f) bytes)) =
                firstn mn (skipn k (chunksOf nb bpp (zskipn first bytes)))).
  { rewrite chunksOf_firstn by lia. replace nb with (k + (mn + (nb - k - mn)))%nat by lia.
    rewrite chunksOf_app by lia. rewrite skipn_exact by apply chunksOf_length.
    rewrite chunksOf_app by lia. rewrite firstn_exact by apply chunksOf_length. rewrite zskipn_zskipn by nia. do 2 f_equal. lia. }
  assert (Edec : rmapM decB (chunksOf mn bpp (zfirstn (bpp * m) (zskipn (fpos f) bytes))) = Ok (firstn mn (skipn k blocks))).
  { rewrite Ech. rewrite <- (firstn_skipn k (chunksOf nb bpp (zskipn first bytes))) in E.
    apply rmapM_app in E as (r1 & r2 & _ & E2 & -> & L1).
    rewrite <- (firstn_skipn mn (skipn k _)) in E2. apply rmapM_app in E2 as (r3 & r4 & E3 & _ & -> & L3).
    rewrite E3. f_equal. rewrite skipn_exact.
    - rewrite firstn_exact; [reflexivity|]. rewrite L3, firstn_length, skipn_length, chunksOf_length. lia.
    - rewrite L1, firstn_length, chunksOf_length. lia. }
  rewrite Edec. cbn [rbind]. unfold ftell, rassert. cbn [fpos].
  replace (fpos f + bpp * m =? t_nextpos t + bpp * m) with true by lia. cbn [rbind].
  replace (m * fpp <? m * fpp) with false by lia.
  eexists. split.
  { f_equal. f_equal.
    unfold zfirstn at 1. rewrite firstn_map. f_equal. change (firstn (Z.to_nat (m * fpp)) (zskipn (fpp * Z.of_nat k) stream)) with
      (zfirstn (m * fpp) (zskipn (fpp * Z.of_nat k) stream)).
    rewrite Es, (zskipn_concat _ fpp) by (auto; lia). rewrite Emn, (Z.mul_comm _ fpp).
    rewrite (zfirstn_concat _ fpp); [reflexivity|lia|].
    rewrite <- (firstn_skipn k blocks) in A. now apply Forall_app in A as [_ A]. }
  split; [reflexivity|]. exists (k + mn)%nat. cbn [fpos t_nextpos t_nextf]. split; [lia|]. split; [lia|]. split; [nia|]. split.
  { unfold zskipn at 1. rewrite skipn_map. f_equal.
    change (skipn (Z.to_nat (m * fpp)) (zskipn (fpp * Z.of_nat k) stream)) with (zskipn (m * fpp) (zskipn (fpp * Z.of_nat k) stream)).
    rewrite zskipn_zskipn by nia. f_equal. lia. }
  split; [|lia]. destruct Hf as (G1 & G2 & G3 & G4 & G5 & G6). unfold frozen.
  cbn [t_first t_totalf t_ignore t_nextv t_totalv t_happy]. rewrite andb_true_r. auto 10.
Qed.

Lemma blockR_frozen fpp bpp t0 t1 s srem : frozen t1 t0 -> blockR fpp bpp t0 s srem -> blockR fpp bpp t1 s srem.
Proof.
  destruct s as [f t]. intros Hf (Hb & k & H1 & H2 & H3 & H4 & H5 & H6). split; [exact Hb|]. exists k.
  repeat (split; [assumption|]). split; [eapply frozen_trans; eauto|assumption].
Qed.

Lemma userPull_ok st p n : at_ st p -> 0 <= n -> p + n <= total ->
  exists st', userPull c conv hasConv seekok st n = Ok (map Some (map conv (zfirstn n (zskipn p stream))), st') /\
    at_ st' (p + n) /\ frozen (rs_track st) (rs_track st').
Proof.
  intros Hat Hn Hl. unfold userPull.
  assert (Fin : forall chunk st', chunk = map Some (zfirstn n (zskipn p stream)) -> 0 <= p <= zlen stream ->
     (let out := map (option_map conv) chunk in
      @Ok (list (option V) * rstate F) (if hasConv then out ++ zrepeat None (n - zlen out) else out, st')) =
      Ok (map Some (map conv (zfirstn n (zskipn p stream))), st')).
  { intros chunk st' -> Hp. destruct HS as (_ & HT & _). cbv zeta. rewrite !map_map. cbn [option_map].
    rewrite <- (map_map conv Some).
    destruct hasConv; [|reflexivity].
    rewrite !zlen_map, zlen_firstn, zlen_skipn by lia. replace (n - _) with 0 by lia. unfold zrepeat. cbn. now rewrite app_nil_r. }
  destruct HS as (F1 & F2 & F3).
  pose proof blockPull_serves as BPS. unfold at_ in *. destruct c as [isPCM bpf dec|fpp bpp decB] eqn:Ec.
  - destruct F3 as (Bp & L & Ls & Es). destruct Hat as (Hb & Hp & Hnf & Htf & Hnp & Hfp).
    unfold perFramePull.
    replace (t_totalf (rs_track st) <? t_nextf (rs_track st) + n) with false by lia. rewrite andb_false_r.
    replace ((n <? 0) || (bpf <=? 0)) with false by lia.
    destruct (fread_ok (rs_file st) (bpf * n)) as [Er Lr]; [nia|nia|rewrite Hb; nia|]. rewrite Er. cbn [rbind]. rewrite Lr.
    replace (bpf * n ÷ bpf) with n by (rewrite Z.mul_comm, Z.quot_mul; lia).
    unfold ftell, rassert. cbn [fpos]. replace (fpos (rs_file st) + bpf * n =? t_nextpos (rs_track st) + bpf * n) with true by lia.
    rewrite orb_true_r. cbn [rbind]. rewrite Fin.
    + eexists. split; [reflexivity|]. cbn [rs_file rs_track fbytes fpos t_nextf t_totalf t_nextpos]. split.
      * split; [exact Hb|]. split; [lia|]. split; [lia|]. split; [exact Htf|]. split; lia.
      * unfold frozen. cbn [rs_track t_first t_totalf t_ignore t_nextv t_totalv t_happy]. rewrite Z.eqb_refl. cbn [orb]. rewrite andb_true_r. auto 10.
    + rewrite <- (map_map dec Some). f_equal. rewrite Hb, Es. rewrite chunksOf_firstn by lia.
      unfold zskipn at 2. rewrite skipn_map. unfold zfirstn. rewrite firstn_map. f_equal.
      replace (Z.to_nat total) with (Z.to_nat p + (Z.to_nat n + (Z.to_nat total - Z.to_nat p - Z.to_nat n)))%nat by lia.
      rewrite chunksOf_app by lia. rewrite skipn_exact by apply chunksOf_length.
      rewrite chunksOf_app by lia. rewrite firstn_exact by apply chunksOf_length. rewrite zskipn_zskipn by nia. do 2 f_equal. lia.
    + lia.
  - destruct F3 as (B1 & B2 & nb & blocks & L & E & A & Es). destruct Hat as (Hp & Hr).
    pose proof (BPS false fpp bpp decB (rs_track st) eq_refl eq_refl) as Hsv.
    assert (Lc : zlen stream = fpp * Z.of_nat nb).
    { rewrite Es, (zlen_chunk_frames _ fpp A). unfold zlen. apply rmapM_length in E. rewrite chunksOf_length in E. now rewrite E. }
    destruct (rebPull_ok (blockPull fpp bpp decB) (blockR fpp bpp (rs_track st)) fpp false false B1 Hsv (Z.to_nat n) (rs_reb st)
                (rs_file st, rs_track st) (map Some (zskipn p stream)) n Hr Hn ltac:(lia)) as (r' & [f' t'] & E' & H1 & _).
    { right. rewrite zlen_map, zlen_skipn by lia. split; [|lia].
      destruct Hr as (srem & (_ & k & _ & _ & _ & -> & _) & Lb & Lo & _ & _ & Eq).
      assert (Q : zlen (map (@Some F) (zskipn p stream)) = zlen (zskipn (r_offset (rs_reb st)) (r_buffer (rs_reb st)) ++ map Some (zskipn (fpp * Z.of_nat k) stream))) by now rewrite Eq.
      rewrite zlen_app, !zlen_map, !zlen_skipn in Q by lia.
      replace (Z.max 0 (zlen stream - p) + r_offset (rs_reb st)) with (fpp + Z.max 0 (zlen stream - fpp * Z.of_nat k)) by lia.
      rewrite Lc. destruct (Z.max_spec 0 (fpp * Z.of_nat nb - fpp * Z.of_nat k)) as [[_ ->]|[_ ->]].
      - replace (fpp + (fpp * Z.of_nat nb - fpp * Z.of_nat k)) with ((1 + Z.of_nat nb - Z.of_nat k) * fpp) by lia. apply Z.mod_mul. lia.
      - replace (fpp + 0) with (1 * fpp) by lia. apply Z.mod_mul. lia. }
    rewrite E'. cbn [rbind]. rewrite Fin.
    + eexists. split; [reflexivity|]. cbn [rs_file rs_track rs_reb].
      specialize (H1 ltac:(rewrite zlen_map, zlen_skipn by lia; lia)).
      assert (Hfr : frozen (rs_track st) t') by (destruct H1 as (? & (_ & ? & _ & _ & _ & _ & Hfr & _) & _); exact Hfr).
      split; [|exact Hfr]. split; [lia|].
      assert (Esk : zskipn n (map (@Some F) (zskipn p stream)) = map Some (zskipn (p + n) stream)).
      { unfold zskipn at 1. rewrite skipn_map. f_equal. change (skipn (Z.to_nat n) (zskipn p stream)) with (zskipn n (zskipn p stream)).
        rewrite zskipn_zskipn by lia. reflexivity. }
      rewrite Esk in H1. destruct H1 as (srem & G & Rest). exists srem. split; [|exact Rest].
      apply blockR_frozen with (t0 := rs_track st); [|exact G].
      destruct Hfr as (a1 & a2 & a3 & a4 & a5 & a6). unfold frozen. auto 10.
    + unfold zfirstn. rewrite firstn_map. reflexivity.
    + lia.
Qed.

Lemma readLoop_ok : forall fuel st acc p n, at_ st p -> t_happy (rs_track st) = true -> zlen acc <= n -> p + (n - zlen acc) <= total ->
  n - zlen acc < Z.of_nat fuel ->
  exists st', readLoop c conv hasConv seekok fuel st false acc n =
      Ok (acc ++ map Some (map conv (zfirstn (n - zlen acc) (zskipn p stream))), st') /\
    at_ st' (p + (n - zlen acc)) /\ frozen (rs_track st) (rs_track st').
Proof.
  induction fuel as [|fuel IH]; intros st acc p n Hat Hh Ha Hl Hf; [lia|].
  cbn [readLoop]. rewrite Hh. cbn [negb andb].
  destruct (Z.ltb_spec (zlen acc) n) as [Hlt|Hge].
  - cbn [negb].
    set (q := if zlen acc <=? n - ATOMIC then ATOMIC else n - zlen acc).
    assert (Hq : 0 < q <= n - zlen acc) by (unfold q, ATOMIC; destruct (Z.leb_spec (zlen acc) (n - 1024)); lia).
    clearbody q.
    destruct (userPull_ok st p q Hat ltac:(lia) ltac:(lia)) as (st1 & -> & At1 & Fr1). cbn [rbind].
    assert (Hh1 : t_happy (rs_track st1) = true) by (destruct Fr1 as (_ & _ & _ & _ & _ & ->); exact Hh).
    rewrite Hh1.
    assert (Hp : 0 <= p) by (clear - Hat; unfold at_ in Hat; destruct c; intuition lia).
    assert (Lch : zlen (map (@Some V) (map conv (zfirstn q (zskipn p stream)))) = q).
    { rewrite !zlen_map, zlen_firstn, zlen_skipn by lia. destruct HS as (_ & HT & _). lia. }
    rewrite Lch, Z.ltb_irrefl.
    destruct (IH st1 (acc ++ map Some (map conv (zfirstn q (zskipn p stream)))) (p + q) n) as (st' & E & At & Fr); auto;
      try (rewrite zlen_app, Lch; lia).
    exists st'. rewrite E. split; [|split].
    + f_equal. f_equal. rewrite <- app_assoc. f_equal. rewrite zlen_app, Lch. rewrite <- map_app, <- map_app. do 2 f_equal.
      replace (n - zlen acc) with (q + (n - (zlen acc + q))) by lia.
      rewrite (zfirstn_split q (n - (zlen acc + q))) by lia. rewrite zskipn_zskipn by lia. reflexivity.
    + rewrite zlen_app, Lch in At. replace (p + (n - zlen acc)) with (p + q + (n - (zlen acc + q))) by lia. exact At.
    + eapply frozen_trans; eauto.
  - cbn [negb]. exists st. split; [|split; [|apply frozen_refl]].
    + rewrite (zfirstn_0 (n - zlen acc)) by lia. cbn. now rewrite app_nil_r.
    + replace (p + (n - zlen acc)) with p by lia. exact Hat.
Qed.

(** ** Whole states *)
Definition seeked (st : rstate F) : rstate F :=
  if seekok then mkRS (fseek (rs_file st) (t_nextpos (rs_track st))) (rs_track st) (rs_reb st) else st.

Definition inv (st : rstate F) (pos : Z) : Prop :=
  let t := rs_track st in
  t_first t = first /\ t_totalf t = total /\ t_totalv t = total /\ t_nextv t = pos /\ 0 <= pos <= total /\
  0 <= t_ignore t <= pos /\ at_ (seeked st) (pos - t_ignore t) /\
  fbytes (rs_file st) = bytes /\
  match c with Blocks fpp _ _ => zlen (r_buffer (rs_reb st)) = fpp | _ => True end.

(** [at_] ignores the bookkeeping fields. *)
Lemma at_track st st' p : at_ st p -> rs_file st' = rs_file st -> rs_reb st' = rs_reb st ->
  t_nextf (rs_track st') = t_nextf (rs_track st) -> t_totalf (rs_track st') = t_totalf (rs_track st) ->
  t_nextpos (rs_track st') = t_nextpos (rs_track st) -> at_ st' p.
Proof.
  unfold at_. intros H E1 E2 E3 E4 E5. destruct c.
  - rewrite E1, E3, E4, E5. exact H.
  - destruct H as [H1 (srem & (Hb & k & G1 & G2 & G3 & G4 & G5 & G6) & Rest)]. split; [exact H1|].
    rewrite E2. exists srem. split; [|exact Rest]. rewrite E1. split; [exact Hb|]. exists k.
    rewrite E5, E3. repeat (split; [assumption|]). split; [apply frozen_refl|assumption].
Qed.

Lemma at_pos st p : at_ st p -> 0 <= p.
Proof. unfold at_. destruct c; intuition lia. Qed.

Lemma at_fpos st p : at_ st p -> fpos (rs_file st) = t_nextpos (rs_track st) /\ fbytes (rs_file st) = bytes.
Proof.
  unfold at_. destruct c; [intuition|]. intros [_ (srem & (Hb & k & G1 & G2 & _) & _)]. auto.
Qed.

Lemma at_buffer st p : at_ st p -> match c with Blocks fpp _ _ => zlen (r_buffer (rs_reb st)) = fpp | _ => True end.
Proof. unfold at_. destruct c; [auto|]. intros [_ (srem & _ & Lb & _)]. exact Lb. Qed.

Lemma seeked_at st p : at_ st p -> seeked st = st.
Proof.
  intros H. unfold seeked. destruct seekok; [|reflexivity]. destruct (at_fpos st p H) as [Hf _].
  destruct st as [f t r]. cbn in *. rewrite <- Hf. destruct f; reflexivity.
Qed.

Lemma afReadFrames_ok st pos wanted : inv st pos ->
  exists st', let k := Z.max 0 (Z.min wanted (total - pos)) in
    afReadFrames c conv hasConv seekok st wanted = Ok (map Some (map conv (zfirstn k (zskipn pos stream))), st') /\ inv st' (pos + k).
Proof.
  intros (I1 & I2 & I3 & I4 & I5 & I6 & I7 & I8 & I9). cbv zeta. unfold afReadFrames.
  rewrite I3, I4. replace (total =? -1) with false by lia.
  set (n := if total - pos <? wanted then total - pos else wanted).
  assert (En : n = Z.min wanted (total - pos)) by (unfold n; destruct (Z.ltb_spec (total - pos) wanted); lia).
  clearbody n.
  set (st0 := mkRS (if seekok then fseek (rs_file st) (t_nextpos (rs_track st)) else rs_file st) (setHappy (rs_track st) true) (rs_reb st)).
  assert (A0 : at_ st0 (pos - t_ignore (rs_track st))).
  { eapply at_track; [exact I7|..]; unfold seeked, st0; destruct seekok; reflexivity. }
  (* skip the frames to ignore *)
  assert (Skip : exists st1,
     (if negb (t_ignore (rs_track st) =? 0) then
       if t_ignore (rs_track st) <? 0 then UB else
       do (chunk, st') <- userPull c conv hasConv seekok st0 (t_ignore (rs_track st));
       Ok (setTrack st' (setIgnore (rs_track st') 0), zlen chunk <? t_ignore (rs_track st))
     else Ok (st0, false)) = Ok (st1, false) /\ at_ st1 pos /\ t_happy (rs_track st1) = true /\ t_ignore (rs_track st1) = 0 /\
     t_first (rs_track st1) = first /\ t_totalf (rs_track st1) = total /\ t_totalv (rs_track st1) = total /\ t_nextv (rs_track st1) = pos).
  { destruct (Z.eqb_spec (t_ignore (rs_track st)) 0) as [Ez|Enz]; cbn [negb].
    - exists st0. split; [reflexivity|]. split; [rewrite Ez, Z.sub_0_r in A0; exact A0|].
      unfold st0. cbn [rs_track setHappy t_happy t_ignore t_first t_totalf t_totalv t_nextv]. auto 10.
    - replace (t_ignore (rs_track st) <? 0) with false by lia.
      destruct (userPull_ok st0 (pos - t_ignore (rs_track st)) (t_ignore (rs_track st)) A0) as (st1 & E & At1 & Fr); [lia|lia|].
      rewrite E. cbn [rbind].
      assert (Ge : 0 <= pos - t_ignore (rs_track st)) by (apply (at_pos _ _ A0)).
      rewrite !zlen_map, zlen_firstn, zlen_skipn by lia.
      assert (HT : total <= zlen stream) by (destruct HS as (_ & HT & _); lia).
      exists (setTrack st1 (setIgnore (rs_track st1) 0)). split; [do 2 f_equal; lia|].
      destruct Fr as (r1 & r2 & r3 & r4 & r5 & r6). cbn [setTrack setIgnore rs_track t_happy t_ignore t_first t_totalf t_totalv t_nextv] in *.
      split.
      { replace pos with (pos - t_ignore (rs_track st) + t_ignore (rs_track st)) at 1 by lia.
        eapply at_track; [exact At1|..]; reflexivity. }
      rewrite r6, r1, r2, r5, r4. unfold st0. cbn [rs_track setHappy t_happy t_first t_totalf t_totalv t_nextv]. auto 10. }
  destruct Skip as (st1 & -> & A1 & H1 & G1 & G2 & G3 & G4 & G5). cbn [rbind].
  destruct (Z.le_gt_cases n 0) as [Hneg|Hpos].
  - assert (EL : readLoop c conv hasConv seekok (Z.to_nat n + 1) st1 false [] n = Ok ([], st1)).
    { replace (Z.to_nat n + 1)%nat with 1%nat by lia. cbn [readLoop]. rewrite zlen_nil.
      replace (0 <? n) with false by lia. rewrite andb_false_r. reflexivity. }
    rewrite EL. cbn [rbind]. rewrite Z.max_l by lia. rewrite zlen_nil, Z.add_0_r. eexists. split.
    { rewrite zfirstn_0 by lia. reflexivity. }
    assert (As : at_ (setTrack st1 (setNextv (rs_track st1) (t_nextv (rs_track st1) + 0))) pos) by (eapply at_track; [exact A1|..]; reflexivity).
    unfold inv. cbn [setTrack setNextv rs_track t_happy t_ignore t_first t_totalf t_totalv t_nextv rs_file rs_reb].
    rewrite G1, Z.sub_0_r. rewrite Z.add_0_r in *. rewrite (seeked_at _ pos) by exact As.
    split; [assumption|]. split; [assumption|]. split; [assumption|]. split; [lia|]. split; [lia|]. split; [lia|].
    split; [exact As|]. split; [apply (at_fpos _ _ A1)|apply (at_buffer _ _ A1)].
  - rewrite Z.max_r by lia. rewrite <- En.
    destruct (readLoop_ok (Z.to_nat n + 1) st1 [] pos n A1 H1) as (st2 & E & A2 & Fr); try (rewrite zlen_nil; lia).
    rewrite E. cbn [rbind app]. rewrite zlen_nil, Z.sub_0_r in *.
    assert (HT : total <= zlen stream) by (destruct HS as (_ & HT & _); lia).
    assert (Lch : zlen (map (@Some V) (map conv (zfirstn n (zskipn pos stream)))) = n).
    { rewrite !zlen_map, zlen_firstn, zlen_skipn by lia. lia. }
    rewrite Lch. eexists. split; [reflexivity|].
    assert (As : at_ (setTrack st2 (setNextv (rs_track st2) (t_nextv (rs_track st2) + n))) (pos + n)) by (eapply at_track; [exact A2|..]; reflexivity).
    destruct Fr as (r1 & r2 & r3 & r4 & r5 & r6).
    unfold inv. cbn [setTrack setNextv rs_track t_happy t_ignore t_first t_totalf t_totalv t_nextv rs_file rs_reb].
    rewrite r3, G1, Z.sub_0_r. rewrite (seeked_at _ (pos + n)) by exact As.
    split; [congruence|]. split; [congruence|]. split; [congruence|]. split; [congruence || lia|]. split; [lia|]. split; [lia|].
    split; [exact As|]. split; [apply (at_fpos _ _ A2)|apply (at_buffer _ _ A2)].
Qed.

Lemma setup_inv st pos : seekok = true -> fbytes (rs_file st) = bytes -> t_first (rs_track st) = first ->
  t_totalf (rs_track st) = total -> t_nextv (rs_track st) = pos -> 0 <= pos <= total ->
  match c with Blocks fpp _ _ => zlen (r_buffer (rs_reb st)) = fpp | _ => True end ->
  inv (setupRead c st) pos /\ t_nextv (rs_track (setupRead c st)) = pos.
Proof.
  intros Hs Hb H1 H2 H3 Hp Hbuf. destruct HS as (F1 & F2 & F3). unfold inv, setupRead, seeked, at_. rewrite Hs.
  destruct c as [isPCM bpf dec|fpp bpp decB] eqn:Ec; cbn [rs_track rs_file rs_reb fseek fbytes fpos t_first t_totalf t_totalv t_nextv t_ignore t_nextpos t_nextf].
  - rewrite H1, H2, H3, Z.sub_0_r. split; [|reflexivity]. repeat (split; [reflexivity || lia|]). split; [|split; [exact Hb|exact I]].
    repeat (split; [assumption || reflexivity || lia|]). reflexivity.
  - destruct F3 as (B1 & B2 & nb & blocks & L & E & A & Es).
    rewrite H1, H2, H3. rewrite !(Z.quot_div_nonneg pos fpp) by lia.
    set (k := pos / fpp). assert (Hk : fpp * k <= pos < fpp * k + fpp).
    { unfold k. pose proof (Z.div_mod pos fpp ltac:(lia)). pose proof (Z.mod_pos_bound pos fpp ltac:(lia)). lia. }
    assert (Hk0 : 0 <= k) by (unfold k; apply Z.div_pos; lia). clearbody k.
    rewrite (Z.quot_mul k fpp) by lia.
    split; [|reflexivity]. repeat (split; [reflexivity || lia|]). split; [|split; [exact Hb|]].
    + split; [lia|]. replace (pos - (pos - k * fpp)) with (k * fpp) by lia. exists (map Some (zskipn (fpp * k) stream)).
      cbn [rebReset r_buffer r_offset r_sent r_eof]. split.
      { split; [exact Hb|]. exists (Z.to_nat k). cbn [fpos t_nextpos t_nextf]. rewrite Z2Nat.id by lia.
        split; [reflexivity|]. split; [reflexivity|]. split; [lia|]. split; [reflexivity|]. split; [apply frozen_refl|lia]. }
      split; [exact Hbuf|]. split; [lia|]. split; [reflexivity|]. split; [discriminate|].
      rewrite (zskipn_all fpp) by lia. cbn [app]. do 2 f_equal. lia.
    + exact Hbuf.
Qed.

Lemma afSeekFrame_ok st pos k : seekok = true -> inv st pos -> (0 < total \/ k <= 0) ->
  let p := if k <? 0 then pos else if total <? k then total - 1 else k in
  fst (afSeekFrame c st k) = p /\ inv (snd (afSeekFrame c st k)) p.
Proof.
  intros Hs I Ht. pose proof I as (I1 & I2 & I3 & I4 & I5 & I6 & I7 & I8 & I9). cbv zeta. unfold afSeekFrame.
  destruct (Z.ltb_spec k 0) as [Hneg|Hk].
  - cbn [fst snd]. auto.
  - rewrite I4. destruct (Z.eqb_spec k pos) as [->|Hne].
    + cbn [fst snd]. destruct (Z.ltb_spec total pos); [lia|]. auto.
    + rewrite I3. replace (total =? -1) with false by lia. cbn [negb andb fst snd].
      set (q := if total <? k then total - 1 else k).
      assert (Hq : 0 <= q <= total) by (unfold q; destruct (Z.ltb_spec total k); lia). clearbody q.
      destruct (setup_inv (setTrack st (setNextv (rs_track st) q)) q) as [J1 J2]; auto.
Qed.

Lemma open_inv : seekok = true -> inv (openRead c bytes first total) 0.
Proof.
  intros Hs. destruct HS as (F1 & F2 & F3). unfold openRead. apply setup_inv; auto; try (cbn; lia).
  destruct c; [exact I|]. cbn. destruct F3 as (Bp & _). rewrite zlen_repeat by lia. reflexivity.
Qed.
End Proofs.

(** Whole histories. *)
Lemma run_refines {B : Build} {F V} (c : codec F) (conv : F -> V) hasConv bytes first total frames st pos ops :
  streamOf c bytes first total frames -> inv c true bytes first total frames st pos ->
  (0 < total \/ Forall (fun o => match o with Seek k => k <= 0 | _ => True end) ops) ->
  crun c conv hasConv true st ops = Ok (arun (mkA (map conv (zfirstn total frames)) pos) ops).
Proof.
  intros HS. revert st pos. induction ops as [|o ops IH]; intros st pos I Hz; [reflexivity|].
  cbn [crun arun]. pose proof I as (I1 & I2 & I3 & I4 & I5 & _).
  assert (HT : 0 <= total <= zlen frames) by (destruct HS as (_ & HT & _); lia).
  assert (Lt : zlen (map conv (zfirstn total frames)) = total) by (rewrite zlen_map, zlen_firstn; lia).
  assert (Hz' : 0 < total \/ Forall (fun o => match o with Seek k => k <= 0 | _ => True end) ops)
    by (destruct Hz as [Hz|Hz]; [auto|right; inversion Hz; auto]).
  destruct o as [n|k| |]; cbn [cstep astep a_frames a_pos]; rewrite ?Lt.
  - destruct (afReadFrames_ok c conv hasConv true bytes first total frames HS st pos n I) as (st' & E & I').
    cbv zeta in E, I'. rewrite E. cbn [rbind]. rewrite (IH st' _ I' Hz'). cbn [rbind]. do 4 f_equal.
    unfold zskipn at 2. rewrite skipn_map. unfold zfirstn at 2. rewrite firstn_map. f_equal.
    set (k := Z.max 0 (Z.min n (total - pos))).
    change (zfirstn k (zskipn pos frames) = zfirstn k (zskipn pos (zfirstn total frames))).
    replace (zskipn pos (zfirstn total frames)) with (zfirstn (total - pos) (zskipn pos frames)).
    + rewrite zfirstn_zfirstn. f_equal. unfold k. lia.
    + unfold zskipn, zfirstn. rewrite skipn_firstn_comm. f_equal. lia.
  - destruct (afSeekFrame_ok c true bytes first total frames HS st pos k eq_refl I) as [E I'].
    { destruct Hz as [Hz|Hz]; [auto|]. inversion Hz; auto. }
    destruct (afSeekFrame c st k) as [z st'] eqn:Es. cbn [fst snd] in E, I'. cbn [rbind].
    rewrite (IH st' _ I' Hz'). cbn [rbind]. rewrite E. reflexivity.
  - unfold afTellFrame, afSeekFrame. cbn [Z.ltb Z.compare rbind]. rewrite (IH st pos I Hz'). cbn [rbind]. rewrite I4. reflexivity.
  - cbn [rbind]. rewrite (IH st pos I Hz'). cbn [rbind]. unfold afGetFrameCount. rewrite I3. reflexivity.
Qed.
