(** Proofs about the reading half of [ALACModule]. *)
From Verif Require Import Prelude PreludeFacts ByteOrder FileIO Rebuffer RebufferSpec RebufferProofs Reader ReaderSpec ReaderProofs Writer Codecs HeaderIO Chunks Float FloatBits PacketTable PropertiesPacketTable CAF.
From Verif Require Import ALACBits ALACGolomb ALACGolombProofs ALACPredict ALACCodec ALACCodecProofs ALACElements ALACPacket ALACSize ALACTotal ALACSearch ALACStream ALACModule ALACWriterProofs.

(** Samples of whole frames, cut into frames. *)
Lemma chunksOf_concat channels : forall (p : list (list Z)) rest, Forall (fun x => zlen x = channels) p -> chunksOf (length p) channels (concat p ++ rest) = p.
Proof.
  induction p as [|x p IH]; intros rest H; cbn [length chunksOf concat]; [reflexivity|]. inversion H as [|? ? Hx Hp]; subst. rewrite <- app_assoc, zfirstn_exact, zskipn_exact. f_equal. apply IH. exact Hp.
Qed.

Section Proofs.
Context {B : Build} {V : Type}.
Variables fr depth channels : Z.
Variable conv : list Z -> V.
Variable hasConv : bool.
Hypothesis Hf : 0 < fr < 2 ^ 24.
Hypothesis Hch : 1 <= channels <= 8.
Variables full : list (list (list Z)).
Variable last : list (list Z).
Variable ps : list (list Z).
Hypothesis Hfull : Forall (fun p => zlen p = fr) full.
Hypothesis Hlast : zlen last < fr.
Hypothesis Hframes : Forall (Forall (fun x => zlen x = channels)) (full ++ [last]).
Hypothesis Hdec : Forall2 (decodesTo fr depth channels) (map (@concat Z) (full ++ [last])) ps.
Hypothesis Hcount : zlen ps < 2 ^ 31.
Variable bytes : list Z.
Variable first : Z.
Variable after : list Z.
Hypothesis Hfirst : 0 <= first.
Hypothesis Hbytes : zskipn first bytes = concat ps ++ after.
Hypothesis Hsize : zlen bytes < 2 ^ 62.
Hypothesis Hfits : first <= zlen bytes.
Variable valid priming remainder : Z.
Let pt := mkPT valid priming remainder (map zlen ps).

Lemma skipn_step {A} (l : list A) k x : nth_error l k = Some x -> skipn k l = x :: skipn (S k) l.
Proof.
  revert l. induction k as [|k IH]; intros [|y l] H; cbn [nth_error] in H; try discriminate.
  - assert (y = x) by congruence. subst. reflexivity.
  - apply (IH l H).
Qed.

(** What comes out. *)
Let keep : list (list Z) -> list (list Z) := map (map (kept depth)).
Let PK := map keep (full ++ [last]).
Definition astream : list (list Z) := map (map (kept depth)) (concat (full ++ [last])).
Let stream := astream.
Let total := zlen stream.

Lemma stream_PK : stream = concat PK.
Proof. unfold stream, astream, PK, keep. apply concat_map. Qed.
Lemma PK_len : length PK = S (length full).
Proof. unfold PK. rewrite map_length, app_length. cbn [length]. lia. Qed.
Lemma ps_len : length ps = S (length full).
Proof. pose proof (Forall2_len _ _ _ Hdec) as L. rewrite map_length, app_length in L. cbn [length] in L. lia. Qed.
Lemma PK_split : PK = map keep full ++ [keep last].
Proof. unfold PK. rewrite map_app. reflexivity. Qed.
Lemma kfull : Forall (fun p => zlen p = fr) (map keep full).
Proof. apply Forall_map. eapply Forall_impl; [|exact Hfull]. intros p Hp. unfold keep. now rewrite zlen_map. Qed.
Lemma klast : zlen (keep last) < fr.
Proof. unfold keep. now rewrite zlen_map. Qed.
Lemma total_eq : total = fr * zlen full + zlen last.
Proof.
  unfold total. rewrite stream_PK, PK_split, concat_app, zlen_app, (zlen_chunk_frames _ fr kfull), zlen_map. cbn [concat]. rewrite app_nil_r. unfold keep. now rewrite zlen_map.
Qed.
(** the rest of the stream from a packet on *)
Lemma stream_at (k : nat) : (k <= length full)%nat -> concat (skipn k PK) = zskipn (fr * Z.of_nat k) stream.
Proof.
  intros Hk. rewrite stream_PK, PK_split. rewrite concat_app. rewrite skipn_app. rewrite map_length. replace (k - length full)%nat with 0%nat by lia. cbn [skipn]. rewrite concat_app.
  rewrite zskipn_app_l.
  - rewrite (zskipn_concat _ fr k ltac:(lia) kfull). reflexivity.
  - rewrite (zlen_chunk_frames _ fr kfull), zlen_map. unfold zlen. nia.
Qed.

Definition sumTo (k : nat) : Z := sum (map zlen (firstn k ps)).
Lemma sumTo_S k p : nth_error ps k = Some p -> sumTo (S k) = sumTo k + zlen p.
Proof.
  intros E. unfold sumTo. destruct (nth_error_split _ _ E) as (a & b & -> & <-).
  replace (S (length a)) with (length a + 1)%nat by lia. rewrite firstn_app_2, firstn_app, firstn_all, Nat.sub_diag. cbn [firstn]. rewrite app_nil_r, map_app, sum_app. cbn [map sum]. lia.
Qed.
Lemma sumTo_nonneg k : 0 <= sumTo k. Proof. apply sum_lens. Qed.
Lemma sumTo_bytes k : zskipn (first + sumTo k) bytes = concat (skipn k ps) ++ after.
Proof. rewrite <- zskipn_zskipn by (try lia; apply sumTo_nonneg). rewrite Hbytes. apply stream_skip. Qed.

(** The file module stands for the rest of the stream. *)
Definition alacR (t0 : rtrack) (s : asource) (srem : list (option (list Z))) : Prop :=
  let '(f, t, cur, inb, outb) := s in
  fbytes f = bytes /\ frozen t0 t /\ bytes_ok inb = true /\ bufferSize fr depth channels <= zlen inb /\ fr * channels <= zlen outb /\
  t_nextpos t = fpos f /\
  exists k : nat, (k <= length PK)%nat /\ cur = Z.of_nat k /\ fpos f = first + sumTo k /\ srem = map Some (concat (skipn k PK)).

Lemma alacPull_serves t0 : serves true false fr (alacPull (W := Wrapping) (cookie fr depth) fr depth channels pt) (alacR t0).
Proof.
  intros [[[[f t] cur] inb] outb] srem n (Hb & Fr & Bi & Li & Lo & Hnp & k & Hk & -> & Hp & ->) Hpos _ En _. specialize (En eq_refl). subst n.
  unfold alacPull. cbn [pt_sizes pt]. pose proof PK_len as LP. pose proof ps_len as Lps.
  assert (S32 : s32 (zlen (map zlen ps)) = Z.of_nat (length PK)).
  { rewrite zlen_map. unfold s32. rewrite sN_small; [unfold zlen; lia|lia|]. change (2 ^ (32 - 1)) with (2 ^ 31). pose proof (zlen_nonneg ps). lia. }
  rewrite S32. destruct (Z.leb_spec (Z.of_nat (length PK)) (Z.of_nat k)) as [He|Hlt].
  - (* nothing left *)
    assert (Ek : skipn k PK = []) by (apply skipn_all2; lia). rewrite Ek. cbn [concat map]. eexists. split; [unfold zfirstn; rewrite firstn_nil; reflexivity|].
    unfold alacR. split; [exact Hb|]. split; [exact Fr|]. split; [exact Bi|]. split; [exact Li|]. split; [exact Lo|]. split; [exact Hnp|].
    exists k. split; [exact Hk|]. split; [reflexivity|]. split; [exact Hp|]. rewrite Ek. unfold zskipn. now rewrite skipn_nil.
  - assert (Hk' : (k < length ps)%nat) by lia.
    destruct (nth_error ps k) as [p|] eqn:Ep; [|apply nth_error_None in Ep; lia].
    destruct (nth_error (full ++ [last]) k) as [xs|] eqn:Ex; [|apply nth_error_None in Ex; rewrite app_length in Ex; cbn [length] in Ex; lia].
    assert (Dxp : decodesTo fr depth channels (concat xs) p).
    { assert (G : forall (l : list (list (list Z))) r j y z, Forall2 (decodesTo fr depth channels) (map (@concat Z) l) r -> nth_error l j = Some y -> nth_error r j = Some z -> decodesTo fr depth channels (concat y) z).
      { induction l as [|a l IH]; intros r [|j] y z H H1 H2; cbn [nth_error] in H1; try discriminate; cbn [map] in H; inversion H as [|? b ? r' Hab Hr]; subst; cbn [nth_error] in H2.
        - assert (y = a) by congruence. assert (z = b) by congruence. subst. exact Hab.
        - exact (IH r' j y z Hr H1 H2). }
      exact (G _ _ _ _ _ Hdec Ex Ep). }
    destruct Dxp as (Bp & P0 & P3 & n & Hn & Lx & D).
    assert (Ag : aget (map zlen ps) (Z.of_nat k) = Ok (zlen p)).
    { unfold aget. replace (Z.of_nat k <? 0) with false by lia. rewrite Nat2Z.id, nth_error_map, Ep. reflexivity. }
    rewrite Ag. cbn [rbind]. replace (zlen p <=? bufferSize fr depth channels) with true by lia. rewrite rassert_true. cbn [rbind].
    replace (zlen inb <? zlen p) with false by lia.
    assert (Rd : fread f (zlen p) = (p, mkFile (fbytes f) (fpos f + zlen p))).
    { unfold fread. rewrite Hb, Hp, sumTo_bytes. assert (Es : concat (skipn k ps) ++ after = p ++ (concat (skipn (S k) ps) ++ after)).
      { rewrite (skipn_step _ _ _ Ep). cbn [concat]. now rewrite <- app_assoc. }
      rewrite Es, zfirstn_exact. reflexivity. }
    rewrite Rd. replace (zlen p <? zlen p) with false by lia.
    set (q := p ++ zskipn (zlen p) inb).
    assert (Lq : zlen q = zlen inb) by (unfold q; rewrite zlen_app, zlen_skipn by lia; lia).
    assert (Bq : bytes_ok q = true) by (unfold q; apply bytes_ok_spec; apply Forall_app; split; [apply bytes_ok_spec; exact Bp|apply Forall_skipn; apply bytes_ok_spec; exact Bi]).
    rewrite (D q outb Bq); [|unfold q; apply zfirstn_exact|lia|nia]. cbn [rbind r_frames r_out].
    assert (Fx : Forall (fun x => zlen x = channels) xs) by (rewrite Forall_forall in Hframes; apply Hframes; eapply nth_error_In; exact Ex).
    assert (Lxs : zlen xs = n).
    { assert (Y : forall l : list (list Z), Forall (fun x => zlen x = channels) l -> zlen (concat l) = zlen l * channels).
      { induction 1 as [|x l Hx _ IH]; [reflexivity|]. cbn [concat]. rewrite zlen_app, zlen_cons, IH. lia. }
      rewrite (Y _ Fx) in Lx. nia. }
    assert (EPK : nth_error PK k = Some (keep xs)) by (unfold PK; rewrite nth_error_map, Ex; reflexivity).
    assert (ES : skipn k PK = keep xs :: skipn (S k) PK) by (apply skipn_step; exact EPK).
    assert (Lk : zlen (keep xs) = n) by (unfold keep; rewrite zlen_map; exact Lxs).
    assert (ECh : chunksOf (Z.to_nat n) channels (map (kept depth) (concat xs) ++ zskipn (n * channels) outb) = keep xs).
    { rewrite concat_map. fold (keep xs). replace (Z.to_nat n) with (length (keep xs)) by (unfold zlen in Lk; lia). apply chunksOf_concat.
      unfold keep. apply Forall_map. eapply Forall_impl; [|exact Fx]. intros x Hx. cbv beta. now rewrite zlen_map. }
    rewrite ECh.
    assert (EF : zfirstn fr (map Some (concat (skipn k PK))) = map Some (keep xs) /\ zskipn fr (map Some (concat (skipn k PK))) = map Some (concat (skipn (S k) PK))).
    { rewrite ES. cbn [concat]. rewrite map_app.
      destruct (Nat.lt_ge_cases k (length full)) as [Hkf|Hkf].
      - assert (n = fr).
        { rewrite nth_error_app1 in Ex by lia. rewrite Forall_forall in Hfull. rewrite <- Lxs. apply Hfull. eapply nth_error_In; exact Ex. }
        assert (LL : zlen (map Some (keep xs)) = fr) by (rewrite zlen_map; lia). rewrite <- LL, zfirstn_exact, zskipn_exact. auto.
      - assert (Ek : skipn (S k) PK = []) by (apply skipn_all2; lia). rewrite Ek. cbn [concat map]. rewrite app_nil_r.
        rewrite zfirstn_all, zskipn_all by (rewrite zlen_map; lia). auto. }
    destruct EF as [EF1 EF2]. rewrite EF1, EF2. eexists. split; [reflexivity|].
    unfold alacR. cbn [fbytes fpos t_nextpos]. split; [exact Hb|]. split; [exact Fr|]. split; [exact Bq|]. split; [lia|].
    split.
    { rewrite zlen_app, zlen_map, zlen_skipn by nia. rewrite Lx. nia. }
    split; [lia|]. exists (S k). split; [lia|]. split; [lia|]. split; [rewrite (sumTo_S k p Ep); lia|reflexivity].
Qed.

Lemma alacR_frozen t0 t1 s srem : frozen t1 t0 -> alacR t0 s srem -> alacR t1 s srem.
Proof.
  destruct s as [[[[f t] cur] inb] outb]. intros Hfz (Hb & Fr & H). split; [exact Hb|]. split; [eapply frozen_trans; eauto|exact H].
Qed.

(** The state stands for the stream from frame [p] on. *)
Definition aat (st : arstate) (p : Z) : Prop :=
  0 <= p <= total /\ rebR (alacR (ar_track st)) fr (ar_reb st) (ar_src st) (map Some (zskipn p stream)).

Lemma aUserPull_ok st p n : aat st p -> 0 <= n -> p + n <= total ->
  exists st', aUserPull (W := Wrapping) (cookie fr depth) fr depth channels pt conv hasConv st n = Ok (map Some (map conv (zfirstn n (zskipn p stream))), st') /\
    aat st' (p + n) /\ frozen (ar_track st) (ar_track st').
Proof.
  intros [Hp Hr] Hn Hl. unfold aUserPull. destruct st as [src reb]. unfold ar_track in *. cbn [ar_src ar_reb] in *.
  destruct (rebPull_ok (alacPull (W := Wrapping) (cookie fr depth) fr depth channels pt) _ fr false true ltac:(lia) (alacPull_serves (let '(_, t, _, _, _) := src in t)) (Z.to_nat n) reb
              src (map Some (zskipn p stream)) n Hr Hn ltac:(lia) (or_introl eq_refl)) as (r' & s' & E' & H1 & _).
  rewrite E'. cbn [rbind]. fold total in Hl.
  assert (Lz : zlen (zskipn p stream) = total - p) by (rewrite zlen_skipn by lia; unfold total in *; lia).
  specialize (H1 ltac:(rewrite zlen_map, Lz; lia)).
  assert (EC : zfirstn n (map Some (zskipn p stream)) = map Some (zfirstn n (zskipn p stream))) by (unfold zfirstn; apply firstn_map). rewrite EC.
  assert (EO : map (option_map conv) (map Some (zfirstn n (zskipn p stream))) = map Some (map conv (zfirstn n (zskipn p stream)))) by (rewrite !map_map; reflexivity). rewrite EO.
  exists (ARS s' r'). split.
  { destruct hasConv; [|reflexivity]. rewrite !zlen_map, zlen_firstn, Lz by lia. replace (n - _) with 0 by lia. change (zrepeat (@None V) 0) with (@nil (option V)). now rewrite app_nil_r. }
  assert (Hfr : frozen (let '(_, t, _, _, _) := src in t) (let '(_, t, _, _, _) := s' in t)).
  { destruct H1 as (srem & G & _). destruct s' as [[[[f t] cur] inb] outb]. destruct G as (_ & G & _). exact G. }
  split; [|exact Hfr]. split; [lia|]. unfold ar_track. cbn [ar_src ar_reb].
  assert (Esk : zskipn n (map (@Some (list Z)) (zskipn p stream)) = map Some (zskipn (p + n) stream)).
  { unfold zskipn at 1. rewrite skipn_map. f_equal. change (skipn (Z.to_nat n) (zskipn p stream)) with (zskipn n (zskipn p stream)). rewrite zskipn_zskipn by lia. reflexivity. }
  rewrite Esk in H1. destruct H1 as (srem & G & Rest). exists srem. split; [|exact Rest]. eapply alacR_frozen; [|exact G].
  destruct Hfr as (a1 & a2 & a3 & a4 & a5 & a6). unfold frozen. auto 10.
Qed.

Lemma aReadLoop_ok : forall fuel st acc p n, aat st p -> t_happy (ar_track st) = true -> zlen acc <= n -> p + (n - zlen acc) <= total -> n - zlen acc < Z.of_nat fuel ->
  exists st', aReadLoop (W := Wrapping) (cookie fr depth) fr depth channels pt conv hasConv fuel st false acc n =
      Ok (acc ++ map Some (map conv (zfirstn (n - zlen acc) (zskipn p stream))), st') /\
    aat st' (p + (n - zlen acc)) /\ frozen (ar_track st) (ar_track st').
Proof.
  induction fuel as [|fuel IH]; intros st acc p n Hat Hh Ha Hl Hfu; [lia|].
  cbn [aReadLoop]. rewrite Hh. cbn [negb andb].
  destruct (Z.ltb_spec (zlen acc) n) as [Hlt|Hge].
  - cbn [negb].
    set (q := if zlen acc <=? n - ATOMIC then ATOMIC else n - zlen acc).
    assert (Hq : 0 < q <= n - zlen acc) by (unfold q, ATOMIC; destruct (Z.leb_spec (zlen acc) (n - 1024)); lia).
    clearbody q.
    destruct (aUserPull_ok st p q Hat ltac:(lia) ltac:(lia)) as (st1 & -> & At1 & Fr1). cbn [rbind].
    assert (Hh1 : t_happy (ar_track st1) = true) by (destruct Fr1 as (_ & _ & _ & _ & _ & ->); exact Hh).
    rewrite Hh1. destruct Hat as [Hp _].
    assert (Lch : zlen (map (@Some V) (map conv (zfirstn q (zskipn p stream)))) = q).
    { rewrite !zlen_map, zlen_firstn, zlen_skipn by lia. fold total. lia. }
    rewrite Lch, Z.ltb_irrefl.
    destruct (IH st1 (acc ++ map Some (map conv (zfirstn q (zskipn p stream)))) (p + q) n) as (st' & E & At & Fr); auto; try (rewrite zlen_app, Lch; lia).
    exists st'. rewrite E. split; [|split].
    + f_equal. f_equal. rewrite <- app_assoc. f_equal. rewrite zlen_app, Lch. rewrite <- map_app, <- map_app. do 2 f_equal.
      replace (n - zlen acc) with (q + (n - (zlen acc + q))) by lia.
      rewrite (zfirstn_split q (n - (zlen acc + q))) by lia. rewrite zskipn_zskipn by lia. reflexivity.
    + rewrite zlen_app, Lch in At. replace (p + (n - zlen acc)) with (p + q + (n - (zlen acc + q))) by lia. exact At.
    + eapply frozen_trans; eauto.
  - cbn [negb]. exists st. split; [|split; [|apply frozen_refl]].
    + rewrite (zfirstn_0 (n - zlen acc)) by lia. cbn. now rewrite app_nil_r.
    + replace (p + (n - zlen acc)) with p by lia. exact Hat.
Qed.

(** ** Whole states *)
Definition bufsOk (st : arstate) : Prop :=
  let '(f, t, cur, inb, outb) := ar_src st in
  fbytes f = bytes /\ bytes_ok inb = true /\ bufferSize fr depth channels <= zlen inb /\ fr * channels <= zlen outb /\ zlen (r_buffer (ar_reb st)) = fr.
Definition ainvR (st : arstate) (pos : Z) : Prop :=
  let t := ar_track st in
  t_first t = first /\ t_totalf t = total /\ t_totalv t = total /\ t_nextv t = pos /\ 0 <= pos <= total /\
  0 <= t_ignore t <= pos /\ aat (ar_set st (fseek (ar_file st) (t_nextpos t)) t) (pos - t_ignore t) /\ bufsOk st.

Lemma aat_bufs st p : aat st p -> bufsOk st.
Proof.
  intros [_ (srem & G & Lb & _)]. unfold bufsOk. destruct (ar_src st) as [[[[f t] cur] inb] outb]. destruct G as (G1 & _ & G2 & G3 & G4 & _). auto 10.
Qed.
Lemma aat_track st t' p : aat st p -> t_nextpos t' = t_nextpos (ar_track st) -> aat (ar_set st (ar_file st) t') p.
Proof.
  intros [Hp (srem & G & Rest)] E. split; [exact Hp|]. exists srem.
  unfold ar_set, ar_file, ar_track in *. destruct st as [[[[[f t] cur] inb] outb] reb]. cbn [ar_src ar_reb] in *. split; [|exact Rest].
  destruct G as (G1 & _ & G3 & G4 & G5 & G6 & G7). split; [exact G1|]. split; [apply frozen_refl|]. split; [exact G3|]. split; [exact G4|]. split; [exact G5|]. split; [congruence|exact G7].
Qed.
Lemma ar_set_same st : ar_set st (ar_file st) (ar_track st) = st.
Proof. unfold ar_set, ar_file, ar_track. destruct st as [[[[[f t] cur] inb] outb] reb]. reflexivity. Qed.
Lemma aat_seeked st p : aat st p -> fseek (ar_file st) (t_nextpos (ar_track st)) = ar_file st.
Proof.
  intros [_ (srem & G & _)]. unfold ar_file, ar_track. destruct (ar_src st) as [[[[f t] cur] inb] outb]. destruct G as (_ & _ & _ & _ & _ & G6 & _). rewrite G6. destruct f; reflexivity.
Qed.
Lemma track_set st f t : ar_track (ar_set st f t) = t.
Proof. unfold ar_track, ar_set. destruct (ar_src st) as [[[[? ?] ?] ?] ?]. reflexivity. Qed.
Lemma file_set st f t : ar_file (ar_set st f t) = f.
Proof. unfold ar_file, ar_set. destruct (ar_src st) as [[[[? ?] ?] ?] ?]. reflexivity. Qed.
Lemma set_set st f t f' t' : ar_set (ar_set st f t) f' t' = ar_set st f' t'.
Proof. unfold ar_set. destruct (ar_src st) as [[[[? ?] ?] ?] ?]. reflexivity. Qed.
Lemma bufs_set st f t : bufsOk st -> fbytes f = bytes -> bufsOk (ar_set st f t).
Proof. unfold bufsOk, ar_set. destruct (ar_src st) as [[[[? ?] ?] ?] ?]. cbn [ar_src ar_reb]. intuition. Qed.

Lemma ainvR_of st pos t' : aat st pos -> t_first t' = first -> t_totalf t' = total -> t_totalv t' = total -> t_nextv t' = pos -> t_ignore t' = 0 ->
  t_nextpos t' = t_nextpos (ar_track st) -> ainvR (ar_set st (ar_file st) t') pos.
Proof.
  intros A E1 E2 E3 E4 E5 E6. unfold ainvR. rewrite track_set, file_set, set_set. pose proof (aat_seeked _ _ A) as Es. rewrite <- E6 in Es.
  pose proof (aat_bufs _ _ A) as Bu. assert (Hp : 0 <= pos <= total) by (apply A). rewrite E5, Z.sub_0_r.
  repeat (split; [first [assumption|lia]|]). split; [rewrite Es; now apply aat_track|].
  apply bufs_set; [exact Bu|]. unfold bufsOk in Bu. unfold ar_file. destruct (ar_src st) as [[[[f t] cur] inb] outb]. apply Bu.
Qed.

Lemma aReadFrames_ok st pos wanted : ainvR st pos ->
  exists st', let k := Z.max 0 (Z.min wanted (total - pos)) in
    aReadFrames (W := Wrapping) (cookie fr depth) fr depth channels pt conv hasConv st wanted = Ok (map Some (map conv (zfirstn k (zskipn pos stream))), st') /\ ainvR st' (pos + k).
Proof.
  intros (I1 & I2 & I3 & I4 & I5 & I6 & I7 & I8). cbv zeta. unfold aReadFrames. rewrite I3, I4. replace (total =? -1) with false by lia.
  set (n := if total - pos <? wanted then total - pos else wanted).
  assert (En : n = Z.min wanted (total - pos)) by (unfold n; destruct (Z.ltb_spec (total - pos) wanted); lia).
  clearbody n.
  set (st0 := ar_set st (fseek (ar_file st) (t_nextpos (ar_track st))) (setHappy (ar_track st) true)).
  assert (A0 : aat st0 (pos - t_ignore (ar_track st))).
  { pose proof (aat_track _ (setHappy (ar_track st) true) _ I7) as A. rewrite track_set, file_set, set_set in A. apply A. reflexivity. }
  assert (T0 : ar_track st0 = setHappy (ar_track st) true) by (apply track_set).
  assert (Skip : exists st1,
     (if negb (t_ignore (ar_track st) =? 0) then
       if t_ignore (ar_track st) <? 0 then UB else
       do (chunk, st') <- aUserPull (W := Wrapping) (cookie fr depth) fr depth channels pt conv hasConv st0 (t_ignore (ar_track st));
       Ok (ar_set st' (ar_file st') (setIgnore (ar_track st') 0), zlen chunk <? t_ignore (ar_track st))
     else Ok (st0, false)) = Ok (st1, false) /\ aat st1 pos /\ t_happy (ar_track st1) = true /\ t_ignore (ar_track st1) = 0 /\
     t_first (ar_track st1) = first /\ t_totalf (ar_track st1) = total /\ t_totalv (ar_track st1) = total /\ t_nextv (ar_track st1) = pos).
  { destruct (Z.eqb_spec (t_ignore (ar_track st)) 0) as [Ez|Enz]; cbn [negb].
    - exists st0. split; [reflexivity|]. split; [rewrite Ez, Z.sub_0_r in A0; exact A0|]. rewrite T0. cbn [setHappy t_happy t_ignore t_first t_totalf t_totalv t_nextv]. auto 10.
    - replace (t_ignore (ar_track st) <? 0) with false by lia.
      destruct (aUserPull_ok st0 (pos - t_ignore (ar_track st)) (t_ignore (ar_track st)) A0) as (st1 & E & At1 & Fr); [lia|lia|].
      rewrite E. cbn [rbind]. destruct A0 as [Ge _].
      rewrite !zlen_map, zlen_firstn, zlen_skipn by lia. fold total.
      exists (ar_set st1 (ar_file st1) (setIgnore (ar_track st1) 0)). split; [do 2 f_equal; lia|].
      rewrite track_set. destruct Fr as (r1 & r2 & r3 & r4 & r5 & r6). cbn [setIgnore t_happy t_ignore t_first t_totalf t_totalv t_nextv].
      split; [|rewrite r6, r1, r2, r5, r4, T0; cbn [setHappy t_happy t_first t_totalf t_totalv t_nextv]; auto 10].
      apply aat_track; [|reflexivity]. replace (pos - t_ignore (ar_track st) + t_ignore (ar_track st)) with pos in At1 by lia. exact At1. }
  destruct Skip as (st1 & -> & A1 & H1 & G1 & G2 & G3 & G4 & G5). cbn [rbind].
  destruct (Z.le_gt_cases n 0) as [Hneg|Hpos].
  - assert (EL : aReadLoop (W := Wrapping) (cookie fr depth) fr depth channels pt conv hasConv (Z.to_nat n + 1) st1 false [] n = Ok ([], st1)).
    { replace (Z.to_nat n + 1)%nat with 1%nat by lia. cbn [aReadLoop]. change (zlen (@nil (option V))) with 0. replace (0 <? n) with false by lia. rewrite andb_false_r. reflexivity. }
    rewrite EL. cbn [rbind]. rewrite Z.max_l by lia. change (zlen (@nil (option V))) with 0. rewrite !Z.add_0_r. eexists. split; [rewrite zfirstn_0 by lia; reflexivity|].
    apply ainvR_of; auto.
  - rewrite Z.max_r by lia. rewrite <- En.
    destruct (aReadLoop_ok (Z.to_nat n + 1) st1 [] pos n A1 H1) as (st2 & E & A2 & Fr); try (change (zlen (@nil (option V))) with 0; lia).
    rewrite E. cbn [rbind app]. change (zlen (@nil (option V))) with 0 in *. rewrite Z.sub_0_r in *.
    assert (Lch : zlen (map (@Some V) (map conv (zfirstn n (zskipn pos stream)))) = n).
    { rewrite !zlen_map, zlen_firstn, zlen_skipn by lia. fold total. lia. }
    rewrite Lch. eexists. split; [reflexivity|]. destruct Fr as (r1 & r2 & r3 & r4 & r5 & r6).
    apply ainvR_of; cbn [setNextv t_first t_totalf t_totalv t_nextv t_ignore t_nextpos]; auto; congruence || lia.
Qed.

Lemma sum_bound : sum (map zlen ps) < 2 ^ 62.
Proof.
  assert (E : sum (map zlen ps) = zlen (concat ps)) by (clear; induction ps as [|p l IH]; [reflexivity|]; cbn [map sum concat]; rewrite zlen_app; lia).
  rewrite E. apply (f_equal (@zlen Z)) in Hbytes. rewrite zlen_app, zlen_skipn in Hbytes by lia. pose proof (zlen_nonneg after). lia.
Qed.

Lemma aSetup_inv st pos : bufsOk st -> t_first (ar_track st) = first -> t_totalf (ar_track st) = total -> t_nextv (ar_track st) = pos -> 0 <= pos <= total ->
  exists st', aSetupRead fr pt st = Ok st' /\ ainvR st' pos.
Proof.
  intros Bu H1 H2 H3 Hp. unfold aSetupRead. destruct st as [[[[[f t] cur] inb] outb] reb]. unfold ar_track in *. cbn [ar_src] in *. rewrite H1, H3.
  pose proof ps_len as Lps. pose proof PK_len as LP. pose proof total_eq as TE.
  assert (Hk0 : 0 <= pos / fr) by (apply Z.div_pos; lia).
  assert (Hkf : pos / fr <= zlen full). { apply Z.lt_succ_r. apply Z.div_lt_upper_bound; [lia|]. unfold Z.succ. nia. }
  assert (LpsZ : zlen ps = zlen full + 1) by (unfold zlen; lia).
  change (2 ^ 31) with 2147483648 in *. change (2 ^ 24) with 16777216 in *.
  assert (Hpos : pos < 2 ^ 63) by (change (2 ^ 63) with 9223372036854775808; nia).
  assert (SF : alacSeek pt first fr pos = Ok (first + sum (zfirstn (pos / fr) (pt_sizes pt)), pos / fr * fr, pos mod fr)).
  { apply C58_alac_seek_partial; cbn [pt pt_sizes].
    - apply Forall_map. apply Forall_forall. intros x _. apply zlen_nonneg.
    - pose proof sum_bound. change (2 ^ 62) with 4611686018427387904 in *. change (2 ^ 63) with 9223372036854775808. lia.
    - change (2 ^ 32) with 4294967296. lia.
    - lia.
    - rewrite zlen_map. lia.
    - change (2 ^ 31) with 2147483648. lia. }
  rewrite SF. cbn [rbind].
  assert (Ec : s32 (u64 pos / fr) = pos / fr).
  { unfold u64. rewrite uN_small by (change (2 ^ 64) with (2 * 2 ^ 63); lia). unfold s32. apply sN_small; [lia|]. change (2 ^ (32 - 1)) with 2147483648. lia. }
  rewrite Ec. eexists. split; [reflexivity|].
  assert (ET : zfirstn (pos / fr) (map zlen ps) = map zlen (firstn (Z.to_nat (pos / fr)) ps)) by (unfold zfirstn; apply firstn_map).
  pose proof (Z.div_mod pos fr ltac:(lia)) as DM. pose proof (Z.mod_pos_bound pos fr ltac:(lia)) as MB.
  unfold bufsOk in Bu. cbn [ar_src ar_reb] in Bu. destruct Bu as (B1 & B2 & B3 & B4 & B5).
  unfold ainvR, ar_track, ar_set, ar_file, bufsOk. cbn [ar_src ar_reb t_first t_totalf t_totalv t_nextv t_ignore t_nextpos].
  split; [reflexivity|]. split; [exact H2|]. split; [exact H2|]. split; [reflexivity|]. split; [exact Hp|]. split; [lia|]. split; [|cbn [rebReset r_buffer]; auto 10].
  split; [lia|]. exists (map Some (concat (skipn (Z.to_nat (pos / fr)) PK))). unfold ar_track. cbn [ar_src ar_reb rebReset r_buffer r_offset r_sent r_eof].
  split.
  { unfold alacR. cbn [fseek fbytes fpos t_nextpos]. split; [exact B1|]. split; [apply frozen_refl|]. split; [exact B2|]. split; [exact B3|]. split; [exact B4|]. split; [reflexivity|].
    exists (Z.to_nat (pos / fr)). split; [unfold zlen in Hkf; lia|]. split; [lia|]. split; [unfold sumTo; cbn [pt pt_sizes]; now rewrite ET|reflexivity]. }
  split; [exact B5|]. split; [lia|]. split; [reflexivity|]. split; [discriminate|]. rewrite (zskipn_all fr) by lia. cbn [app].
  rewrite stream_at by (unfold zlen in Hkf; lia). rewrite Z2Nat.id by lia. f_equal. f_equal. lia.
Qed.

Lemma aSeekFrame_ok st pos k : ainvR st pos -> (0 < total \/ k <= 0) ->
  let p := if k <? 0 then pos else if total <? k then total - 1 else k in
  exists st', aSeekFrame fr pt st k = Ok (p, st') /\ ainvR st' p.
Proof.
  intros I Ht. pose proof I as (I1 & I2 & I3 & I4 & I5 & I6 & I7 & I8). cbv zeta. unfold aSeekFrame. rewrite I4, I3.
  destruct (Z.ltb_spec k 0) as [Hneg|Hk]; [exists st; auto|].
  destruct (Z.eqb_spec k pos) as [->|Hne].
  - exists st. destruct (Z.ltb_spec total pos); [lia|]. auto.
  - replace (total =? -1) with false by lia. cbn [negb andb].
    set (q := if total <? k then total - 1 else k).
    assert (Hq : 0 <= q <= total) by (unfold q; destruct (Z.ltb_spec total k); lia). clearbody q.
    destruct (aSetup_inv (ar_set st (ar_file st) (setNextv (ar_track st) q)) q) as (st' & E & J).
    + apply bufs_set; [exact I8|]. unfold bufsOk in I8. unfold ar_file. destruct (ar_src st) as [[[[f t] cur] inb] outb]. apply I8.
    + rewrite track_set. exact I1. + rewrite track_set. exact I2. + rewrite track_set. reflexivity. + exact Hq.
    + rewrite E. cbn [rbind]. exists st'. assert (En : t_nextv (ar_track st') = q) by (apply J). rewrite En. auto.
Qed.

Lemma arrun_ok ops : forall st pos, ainvR st pos -> (0 < total \/ Forall (fun o => match o with Seek k => k <= 0 | _ => True end) ops) ->
  arrun (W := Wrapping) (cookie fr depth) fr depth channels pt conv hasConv st ops = Ok (arun (mkA (map conv stream) pos) ops).
Proof.
  induction ops as [|o ops IH]; intros st pos I Hz; [reflexivity|].
  cbn [arrun arun]. pose proof I as (I1 & I2 & I3 & I4 & I5 & _).
  assert (Lt : zlen (map conv stream) = total) by (rewrite zlen_map; reflexivity).
  assert (Hz' : 0 < total \/ Forall (fun o => match o with Seek k => k <= 0 | _ => True end) ops) by (destruct Hz as [Hz|Hz]; [auto|right; inversion Hz; auto]).
  destruct o as [n|k| |]; cbn [arstep ReaderSpec.astep a_frames a_pos]; rewrite ?Lt.
  - destruct (aReadFrames_ok st pos n I) as (st' & E & I'). cbv zeta in E, I'. rewrite E. cbn [rbind]. rewrite (IH st' _ I' Hz'). cbn [rbind]. do 4 f_equal.
    unfold zskipn at 2. rewrite skipn_map. unfold zfirstn at 2. rewrite firstn_map. reflexivity.
  - destruct (aSeekFrame_ok st pos k I) as (st' & E & I').
    { destruct Hz as [Hz|Hz]; [auto|]. inversion Hz; auto. }
    rewrite E. cbn [rbind]. rewrite (IH st' _ I' Hz'). reflexivity.
  - unfold aSeekFrame. cbn [Z.ltb Z.compare rbind]. rewrite (IH st pos I Hz'). cbn [rbind]. rewrite I4. reflexivity.
  - cbn [rbind]. rewrite (IH st pos I Hz'). cbn [rbind]. rewrite I3. reflexivity.
Qed.

Lemma aOpen_reads inb outb : bytes_ok inb = true -> bufferSize fr depth channels <= zlen inb -> fr * channels <= zlen outb ->
  exists st, aOpenRead fr pt bytes first total inb outb = Ok st /\ ainvR st 0.
Proof.
  intros H1 H2 H3. unfold aOpenRead. apply aSetup_inv; auto.
  - unfold bufsOk. cbn [ar_src ar_reb fbytes rebInitPull r_buffer]. rewrite zlen_repeat by lia. auto 10.
  - pose proof (zlen_nonneg stream). unfold total. lia.
Qed.
End Proofs.
