(** Proofs about [Rebuffer]. *)
From Verif Require Import Prelude PreludeFacts Rebuffer RebufferSpec.

Lemma slice_ok {A} (src : list A) pos n : 0 <= pos -> 0 <= n -> pos + n <= zlen src ->
  slice src pos n = Ok (zfirstn n (zskipn pos src)).
Proof.
  intros. unfold slice. destruct (Z.eqb_spec n 0) as [->|]; [rewrite zfirstn_0 by lia; reflexivity|].
  replace ((0 <=? pos) && (0 <=? n) && (pos + n <=? zlen src)) with true by lia. reflexivity.
Qed.

Lemma blit_ok {A} (dst : list A) pos src : 0 <= pos -> pos + zlen src <= zlen dst ->
  blit dst pos src = Ok (zfirstn pos dst ++ src ++ zskipn (pos + zlen src) dst).
Proof.
  intros. unfold blit. destruct (Z.eqb_spec (zlen src) 0) as [E|].
  - destruct src; [|rewrite zlen_cons in E; pose proof (zlen_nonneg src); lia].
    rewrite zlen_nil, Z.add_0_r. cbn [app]. now rewrite zfirstn_skipn.
  - replace ((0 <=? pos) && (pos + zlen src <=? zlen dst)) with true by lia. reflexivity.
Qed.

Lemma blit_len {A} (dst : list A) pos src : 0 <= pos -> pos + zlen src <= zlen dst ->
  zlen (zfirstn pos dst ++ src ++ zskipn (pos + zlen src) dst) = zlen dst.
Proof. intros. pose proof (zlen_nonneg src). rewrite !zlen_app, zlen_firstn, zlen_skipn by lia. lia. Qed.

Lemma blit_prefix {A} (dst : list A) pos src : 0 <= pos -> pos + zlen src <= zlen dst ->
  zfirstn (pos + zlen src) (zfirstn pos dst ++ src ++ zskipn (pos + zlen src) dst) = zfirstn pos dst ++ src.
Proof.
  intros. pose proof (zlen_nonneg src).
  rewrite app_assoc. rewrite zfirstn_app_l.
  - rewrite zfirstn_all; [reflexivity|]. rewrite zlen_app, zlen_firstn by lia. lia.
  - rewrite zlen_app, zlen_firstn by lia. lia.
Qed.

Lemma blit_suffix {A} (dst : list A) pos src : 0 <= pos -> pos + zlen src = zlen dst ->
  zskipn pos (zfirstn pos dst ++ src ++ zskipn (pos + zlen src) dst) = src.
Proof.
  intros. pose proof (zlen_nonneg src).
  rewrite (zskipn_all (pos + zlen src)) by lia. rewrite app_nil_r.
  rewrite zskipn_app_r by (rewrite zlen_firstn by lia; lia).
  rewrite zskipn_0; [reflexivity|]. rewrite zlen_firstn by lia. lia.
Qed.

Section PullProofs.
Context {B : Build}.
Context {A S : Type} (pull : S -> Z -> res (list (option A) * S)) (R : S -> list (option A) -> Prop) (N : Z) (mult eofok : bool).
Hypothesis HN : 0 < N.
Hypothesis HS : serves eofok mult N pull R.

(** What must hold of a request of [ftp] frames made to a source with [srem] left. *)
Definition within (srem : list (option A)) (ftp : Z) : Prop := eofok = true \/ (zlen srem mod N = 0 /\ ftp <= zlen srem).

Lemma requested_ok ftp : 0 < ftp ->
  let q := if mult then (Z.quot (ftp - 1) N + 1) * N else N in
  0 < q /\ q mod N = 0 /\ q - ftp < N /\ (mult = true -> ftp <= q) /\ (mult = false -> q = N).
Proof.
  intros H. destruct mult; cbv zeta.
  - rewrite Z.quot_div_nonneg by lia.
    pose proof (Z.div_mod (ftp - 1) N ltac:(lia)). pose proof (Z.mod_pos_bound (ftp - 1) N ltac:(lia)).
    set (d := (ftp - 1) / N) in *. set (e := (ftp - 1) mod N) in *. clearbody d e.
    assert (0 <= d) by nia. split; [nia|]. split; [apply Z.mod_mul; lia|]. split; [nia|]. split; [intros _; nia|discriminate].
  - split; [lia|]. split; [apply Z.mod_same; lia|]. split; [lia|]. split; [discriminate|reflexivity].
Qed.

Lemma requested_within ftp q srem : 0 < ftp -> q mod N = 0 -> q - ftp < N -> (mult = true -> ftp <= q) -> (mult = false -> q = N) ->
  within srem ftp -> eofok = true \/ q <= zlen srem.
Proof.
  intros Hf Hq Hq2 Hm Hm' [H|[Hz Hl]]; [auto|right].
  apply Z.mod_divide in Hq; [|lia]. apply Z.mod_divide in Hz; [|lia]. destruct Hq as (a & Ha), Hz as (b & Hb).
  destruct (Z_le_gt_dec a b) as [L|L]; [rewrite Ha, Hb; apply Z.mul_le_mono_nonneg_r; lia|].
  assert ((b + 1) * N <= a * N) by (apply Z.mul_le_mono_nonneg_r; lia). lia.
Qed.

Lemma within_next srem ftp q : 0 <= q -> q mod N = 0 -> q <= zlen srem \/ eofok = true -> within srem ftp -> within (zskipn q srem) (ftp - q).
Proof.
  intros H0 Hq Hl [H|[Hz Hf]]; [left; auto|]. destruct Hl as [Hl|Hl]; [|left; auto]. right. rewrite zlen_skipn by lia.
  rewrite Z.max_r by lia. split; [|lia]. rewrite Zminus_mod, Hz, Hq. reflexivity.
Qed.

Lemma pullLoop_ok : forall fuel eof buffer out outPos ftp s srem,
  R s srem -> (eof = true -> srem = []) -> zlen buffer = N -> 0 < ftp -> 0 <= outPos -> outPos + ftp = zlen out ->
  (eof = true \/ ftp <= Z.of_nat fuel) -> within srem ftp ->
  exists eof' buffer' offset' out' ftp' s' srem',
    pullLoop pull N mult fuel eof buffer N out outPos ftp s = Ok (eof', buffer', offset', out', ftp', s') /\
    R s' srem' /\ (eof' = true -> srem' = []) /\ zlen buffer' = N /\ zlen out' = zlen out /\
    ((ftp <= zlen srem /\ ftp' <= 0 /\ offset' = N + ftp' /\ 0 < offset' <= N /\
      out' = zfirstn outPos out ++ zfirstn ftp srem /\ zskipn offset' buffer' ++ srem' = zskipn ftp srem) \/
     (zlen srem < ftp /\ eof' = true /\ ftp' = ftp - zlen srem /\ offset' = N /\
      zfirstn (outPos + zlen srem) out' = zfirstn outPos out ++ srem)).
Proof.
  assert (EOFcase : forall fuel buffer out outPos ftp s srem,
    R s srem -> srem = [] -> zlen buffer = N -> 0 < ftp -> 0 <= outPos -> outPos + ftp = zlen out ->
    exists eof' buffer' offset' out' ftp' s' srem',
    pullLoop pull N mult fuel true buffer N out outPos ftp s = Ok (eof', buffer', offset', out', ftp', s') /\
    R s' srem' /\ (eof' = true -> srem' = []) /\ zlen buffer' = N /\ zlen out' = zlen out /\
    ((ftp <= zlen srem /\ ftp' <= 0 /\ offset' = N + ftp' /\ 0 < offset' <= N /\
      out' = zfirstn outPos out ++ zfirstn ftp srem /\ zskipn offset' buffer' ++ srem' = zskipn ftp srem) \/
     (zlen srem < ftp /\ eof' = true /\ ftp' = ftp - zlen srem /\ offset' = N /\
      zfirstn (outPos + zlen srem) out' = zfirstn outPos out ++ srem))).
  { intros fuel buffer out outPos ftp s srem HR -> Hb Hf Hp Ho.
    exists true, buffer, N, out, ftp, s, []. split; [destruct fuel; reflexivity|]. split; [exact HR|]. split; [reflexivity|].
    split; [exact Hb|]. split; [reflexivity|]. right. rewrite zlen_nil, Z.add_0_r, Z.sub_0_r, app_nil_r.
    split; [lia|auto]. }
  induction fuel as [|fuel IH]; intros eof buffer out outPos ftp s srem HR He Hb Hf Hp Ho Hfu Hw.
  { destruct Hfu as [->|Hfu]; [|lia]. apply EOFcase; auto. }
  destruct eof; [apply EOFcase; auto|]. destruct Hfu as [Hfu|Hfu]; [discriminate|].
  cbn [pullLoop].
  - clear He. replace (ftp <=? 0) with false by lia. cbn [orb].
    destruct (requested_ok ftp Hf) as (Q1 & Q2 & Q3 & Q4 & Q5).
    set (q := if mult then (Z.quot (ftp - 1) N + 1) * N else N) in *. clearbody q.
    unfold rassert at 1. replace (0 <? q) with true by lia. cbn [rbind].
    pose proof (requested_within ftp q srem Hf Q2 Q3 Q4 Q5 Hw) as Hq.
    destruct (HS s srem q HR Q1 Q2 Q5 Hq) as (s1 & -> & HR1). cbn [rbind].
    set (inb := zfirstn q srem). pose proof (zlen_nonneg srem) as Hz.
    assert (Lin : zlen inb = Z.min q (zlen srem)) by (unfold inb; rewrite zlen_firstn; lia).
    rewrite slice_ok by lia. cbn [rbind]. rewrite (zskipn_0 0) by lia.
    assert (Lseg : zlen (zfirstn (Z.min ftp (zlen inb)) inb) = Z.min ftp (zlen inb)) by (rewrite zlen_firstn; lia).
    rewrite blit_ok by lia. cbn [rbind]. rewrite Lseg.
    set (seg := zfirstn (Z.min ftp (zlen inb)) inb) in *.
    assert (Lout : zlen (zfirstn outPos out ++ seg ++ zskipn (outPos + Z.min ftp (zlen inb)) out) = zlen out)
      by (rewrite <- Lseg; apply blit_len; lia).
    assert (Pout : zfirstn (outPos + Z.min ftp (zlen inb)) (zfirstn outPos out ++ seg ++ zskipn (outPos + Z.min ftp (zlen inb)) out)
                   = zfirstn outPos out ++ seg) by (rewrite <- Lseg; apply blit_prefix; lia).
    set (out1 := zfirstn outPos out ++ seg ++ zskipn (outPos + Z.min ftp (zlen inb)) out) in *.
    unfold rassert at 1.
    replace (negb mult || negb (zlen inb =? q) || (ftp - zlen inb <=? 0)) with true
      by (destruct mult; [specialize (Q4 eq_refl)|]; lia).
    cbn [rbind].
    assert (EOF : negb (zlen inb =? q) = true -> zskipn q srem = []).
    { intros E. apply zskipn_all. lia. }
    destruct (Z.ltb_spec (ftp - zlen inb) 0) as [Hneg|Hpos].
    + (* part of the block is left over *)
      unfold rassert at 1. rewrite Z.eqb_refl. cbn [rbind]. unfold offsetOkPull, rassert.
      replace ((0 <? N + (ftp - zlen inb)) && (N + (ftp - zlen inb) <=? N)) with true by lia. cbn [rbind].
      replace (zlen inb + (ftp - zlen inb)) with ftp by lia.
      replace (N - (N + (ftp - zlen inb))) with (zlen inb - ftp) by lia.
      rewrite slice_ok by lia. cbn [rbind].
      assert (Lsk : zlen (zskipn ftp inb) = zlen inb - ftp) by (rewrite zlen_skipn by lia; lia).
      rewrite (zfirstn_all (zlen inb - ftp) (zskipn ftp inb)) by lia.
      rewrite blit_ok by lia. cbn [rbind]. rewrite Lsk.
      assert (Sb : zskipn (N + (ftp - zlen inb)) (zfirstn (N + (ftp - zlen inb)) buffer ++ zskipn ftp inb ++
                 zskipn (N + (ftp - zlen inb) + (zlen inb - ftp)) buffer) = zskipn ftp inb)
        by (rewrite <- Lsk; apply blit_suffix; lia).
      assert (Lb : zlen (zfirstn (N + (ftp - zlen inb)) buffer ++ zskipn ftp inb ++
                 zskipn (N + (ftp - zlen inb) + (zlen inb - ftp)) buffer) = N)
        by (rewrite <- Lsk, blit_len; lia).
      set (buffer1 := zfirstn (N + (ftp - zlen inb)) buffer ++ zskipn ftp inb ++ zskipn (N + (ftp - zlen inb) + (zlen inb - ftp)) buffer) in *.
      exists (negb (zlen inb =? q)), buffer1, (N + (ftp - zlen inb)), out1, (ftp - zlen inb), s1, (zskipn q srem).
      split.
      { destruct fuel; cbn [pullLoop]; replace (ftp - zlen inb <=? 0) with true by lia; rewrite orb_true_r; reflexivity. }
      split; [exact HR1|]. split; [exact EOF|]. split; [exact Lb|]. split; [exact Lout|]. left.
      split; [lia|]. split; [lia|]. split; [reflexivity|]. split; [lia|]. split.
      * rewrite <- (zfirstn_all (zlen out) out1) by lia. replace (zlen out) with (outPos + Z.min ftp (zlen inb)) by lia.
        rewrite Pout. f_equal. unfold seg. rewrite Z.min_l by lia. unfold inb. rewrite zfirstn_zfirstn. f_equal. lia.
      * rewrite Sb. unfold inb. rewrite <- (zfirstn_skipn q srem) at 3.
        rewrite zskipn_app_l; [reflexivity|]. fold inb. lia.
    + unfold rassert at 1. rewrite Z.eqb_refl. cbn [rbind].
      destruct (Z.eqb_spec ftp (zlen inb)) as [Efull|Hmore].
      * (* exactly satisfied *)
        exists (negb (zlen inb =? q)), buffer, N, out1, (ftp - zlen inb), s1, (zskipn q srem). split.
        { destruct fuel; cbn [pullLoop]; replace (ftp - zlen inb <=? 0) with true by lia; rewrite orb_true_r; reflexivity. }
        split; [exact HR1|]. split; [exact EOF|]. split; [exact Hb|]. split; [exact Lout|]. left.
        split; [lia|]. split; [lia|]. split; [lia|]. split; [lia|]. split.
        { rewrite <- (zfirstn_all (zlen out) out1) by lia. replace (zlen out) with (outPos + Z.min ftp (zlen inb)) by lia.
          rewrite Pout. f_equal. unfold seg. rewrite Z.min_l by lia. unfold inb. rewrite zfirstn_zfirstn. f_equal. lia. }
        rewrite (zskipn_all N) by lia. cbn [app].
        destruct (Z.eqb_spec (zlen inb) q) as [E|E].
        { f_equal. lia. }
        rewrite !zskipn_all by lia. reflexivity.
      * (* more to pull *)
        assert (Eseg : seg = inb) by (unfold seg; rewrite Z.min_r by lia; apply zfirstn_all; lia).
        destruct (IH (negb (zlen inb =? q)) buffer out1 (outPos + zlen inb) (ftp - zlen inb) s1 (zskipn q srem))
          as (eof' & buffer' & offset' & out' & ftp' & s' & srem' & E & HR' & He' & Lb' & Lo' & D); auto; try lia.
        { destruct Hq as [Hq|Hq]; [left; exact Hq|]. replace (zlen inb) with q by lia. apply within_next; auto; lia. }
        exists eof', buffer', offset', out', ftp', s', srem'. split; [exact E|].
        split; [exact HR'|]. split; [exact He'|]. split; [exact Lb'|]. split; [lia|].
        assert (Lq : zlen (zskipn q srem) = zlen srem - zlen inb) by (rewrite zlen_skipn by lia; lia).
        assert (Pout' : zfirstn (outPos + zlen inb) out1 = zfirstn outPos out ++ inb)
          by (rewrite <- Eseg at 2; rewrite <- Pout; f_equal; lia).
        assert (Esrem : srem = inb ++ zskipn q srem) by (unfold inb; now rewrite zfirstn_skipn).
        destruct D as [(D1 & D2 & D3 & D4 & D5 & D6)|(D1 & D2 & D3 & D4 & D5)].
        { left. split; [lia|]. split; [exact D2|]. split; [exact D3|]. split; [exact D4|]. split.
          - rewrite D5, Pout', <- app_assoc. f_equal. rewrite Esrem at 2. rewrite zfirstn_app_r by lia. reflexivity.
          - rewrite D6. rewrite Esrem at 2. rewrite zskipn_app_r by lia. reflexivity. }
        { right. split; [lia|]. split; [exact D2|]. split; [lia|]. split; [exact D4|].
          replace (outPos + zlen srem) with (outPos + zlen inb + zlen (zskipn q srem)) by lia.
          rewrite D5, Pout', <- app_assoc. now rewrite <- Esrem. }
Qed.

(** The rebuffering module itself stands for a stream. *)
Definition rebR (r : rebuffer A) (s : S) (rem : list (option A)) : Prop :=
  exists srem, R s srem /\ zlen (r_buffer r) = N /\ 0 < r_offset r <= N /\ r_sent r = false /\
    (r_eof r = true -> srem = []) /\ rem = zskipn (r_offset r) (r_buffer r) ++ srem.

Lemma zlen_zrepeat_None n : 0 <= n -> zlen (@zrepeat (option A) None n) = n.
Proof. apply zlen_repeat. Qed.

Lemma rebPull_ok fuel r s rem n : rebR r s rem -> 0 <= n -> n <= Z.of_nat fuel ->
  (eofok = true \/ ((zlen rem + r_offset r) mod N = 0 /\ n <= zlen rem)) ->
  exists r' s', rebPull pull N mult fuel r s n = Ok (zfirstn n rem, r', s') /\
    (n <= zlen rem -> rebR r' s' (zskipn n rem)) /\ (zlen rem < n -> r_sent r' = true /\ r_eof r' = true).
Proof.
  intros (srem & HR & Hb & Ho & Hs & He & ->) Hn Hf Hw. unfold rebPull. unfold offsetOkPull at 1, rassert at 1.
  replace ((0 <? r_offset r) && (r_offset r <=? N)) with true by lia. cbn [rbind]. rewrite Hs. cbn [negb rassert rbind].
  set (off := r_offset r) in *. set (buf := r_buffer r) in *.
  set (held := zskipn off buf).
  assert (Lheld : zlen held = N - off) by (unfold held; rewrite zlen_skipn by lia; lia).
  pose proof (zlen_nonneg srem) as Hz.
  (* first part: what is copied from m_buffer *)
  assert (First : exists out0, zlen out0 = n /\ zfirstn (Z.min n (N - off)) out0 = zfirstn n held /\
     (if off <? N then
       do seg <- slice buf off (Z.min n (N - off)); do out <- blit (zrepeat None n) 0 seg;
       Ok (out, N - off, n - (N - off), off + Z.min n (N - off))
     else Ok (zrepeat None n, 0, n, off)) = Ok (out0, N - off, n - (N - off), off + Z.min n (N - off))).
  { destruct (Z.ltb_spec off N).
    - rewrite slice_ok by lia. cbn [rbind].
      assert (L : zlen (zfirstn (Z.min n (N - off)) (zskipn off buf)) = Z.min n (N - off)).
      { fold held. rewrite zlen_firstn by lia. lia. }
      rewrite blit_ok by (rewrite ?L, ?zlen_repeat by lia; lia). cbn [rbind]. eexists. split; [|split; [|reflexivity]].
      + rewrite blit_len; rewrite ?L, ?zlen_repeat by lia; lia.
      + rewrite <- L at 1. replace (zlen (zfirstn (Z.min n (N - off)) (zskipn off buf)))
          with (0 + zlen (zfirstn (Z.min n (N - off)) (zskipn off buf))) at 1 by lia.
        rewrite blit_prefix by (rewrite ?L, ?zlen_repeat by lia; lia). rewrite zfirstn_0 by lia. cbn [app].
        fold held. destruct (Z.min_spec n (N - off)) as [[? ->]|[? ->]]; [reflexivity|].
        rewrite !zfirstn_all by lia. reflexivity.
    - exists (zrepeat None n). split; [apply zlen_repeat; lia|]. split.
      + rewrite !zfirstn_0 by lia. assert (held = []) as -> by (apply zskipn_all; lia).
        unfold zfirstn. now rewrite firstn_nil.
      + do 4 f_equal; lia. }
  cbv zeta. destruct First as (out0 & L0 & P0 & ->). cbn [rbind].
  destruct (Z.le_gt_cases n (N - off)) as [Hfew|Hmany].
  - (* the buffered frames suffice *)
    assert (EL : forall s, pullLoop pull N mult fuel (r_eof r) buf (off + Z.min n (N - off)) out0 (N - off) (n - (N - off)) s
              = Ok (r_eof r, buf, off + Z.min n (N - off), out0, n - (N - off), s)).
    { intros. destruct fuel; cbn [pullLoop]; replace (n - (N - off) <=? 0) with true by lia; rewrite orb_true_r; reflexivity. }
    rewrite EL. cbn [rbind].
    replace (r_eof r && (0 <? n - (N - off))) with false by lia. unfold rassert.
    replace (n - (N - off) <=? 0) with true by lia. cbn [rbind]. rewrite Z.min_l by lia.
    replace (off + n =? N + (n - (N - off))) with true by lia. cbn [rbind]. unfold offsetOkPull.
    replace ((0 <? off + n) && (off + n <=? N)) with true by lia. cbn [rbind].
    eexists _, _. split.
    { rewrite zfirstn_app_l by lia. rewrite Z.min_l in P0 by lia. rewrite <- P0, zfirstn_all by lia. reflexivity. }
    rewrite zlen_app. split; [|lia]. intros _. exists srem. cbn [r_buffer r_offset r_sent r_eof].
    split; [exact HR|]. split; [exact Hb|]. split; [lia|]. split; [reflexivity|]. split; [exact He|].
    rewrite zskipn_app_l by lia. unfold held. rewrite zskipn_zskipn by lia. reflexivity.
  - rewrite (Z.min_r n (N - off)) in * by lia. replace (off + (N - off)) with N by lia.
    rewrite (zfirstn_all n held) in P0 by lia.
    assert (Hw' : within srem (n - (N - off))).
    { destruct Hw as [Hw|[Hw1 Hw2]]; [left; auto|right]. rewrite zlen_app in Hw1, Hw2. fold held in Hw1, Hw2. rewrite Lheld in Hw1, Hw2.
      split; [|lia]. replace (N - off + zlen srem + off) with (zlen srem + 1 * N) in Hw1 by lia. rewrite Z.mod_add in Hw1 by lia. exact Hw1. }
    destruct (pullLoop_ok fuel (r_eof r) buf out0 (N - off) (n - (N - off)) s srem)
      as (eof' & buffer' & offset' & out' & ftp' & s' & srem' & E & HR' & He' & Lb' & Lo' & D); auto; try lia.
    rewrite E. cbn [rbind].
    destruct D as [(D1 & D2 & D3 & D4 & D5 & D6)|(D1 & D2 & D3 & D4 & D5)].
    + replace (eof' && (0 <? ftp')) with false by lia. unfold rassert.
      replace (ftp' <=? 0) with true by lia. cbn [rbind]. replace (offset' =? N + ftp') with true by lia. cbn [rbind].
      unfold offsetOkPull. replace ((0 <? offset') && (offset' <=? N)) with true by lia. cbn [rbind].
      eexists _, _. split.
      { rewrite zfirstn_app_r by lia. rewrite D5, P0, Lheld. reflexivity. }
      rewrite zlen_app. split; [|lia]. intros _. exists srem'. cbn [r_buffer r_offset r_sent r_eof].
      split; [exact HR'|]. split; [exact Lb'|]. split; [exact D4|]. split; [reflexivity|]. split; [exact He'|].
      rewrite D6. rewrite zskipn_app_r by lia. f_equal. lia.
    + replace (eof' && (0 <? ftp')) with true by (rewrite D2; lia). unfold rassert.
      rewrite D4, Z.eqb_refl. cbn [rbind]. unfold offsetOkPull. replace ((0 <? N) && (N <=? N)) with true by lia. cbn [rbind].
      eexists _, _. split.
      { replace (n - ftp') with (N - off + zlen srem) by lia. rewrite D5, P0.
        rewrite (zfirstn_all n) by (rewrite zlen_app; lia). reflexivity. }
      rewrite zlen_app. split; [lia|]. intros _. cbn. auto.
Qed.

Lemma rebInit_R s rem : R s rem -> rebR (rebInitPull N) s rem.
Proof.
  intros H. exists rem. cbn [rebInitPull r_buffer r_offset r_sent r_eof]. split; [exact H|]. split; [apply zlen_repeat; lia|].
  split; [lia|]. split; [reflexivity|]. split; [discriminate|]. rewrite zskipn_all by (rewrite zlen_repeat by lia; lia). reflexivity.
Qed.

Lemma rebReads_ok : eofok = true -> forall reqs r s rem, rebR r s rem -> Forall (fun n => 0 <= n) reqs ->
  rebReads pull N mult r s reqs = Ok (streamReads rem reqs).
Proof.
  intros Heof. induction reqs as [|n reqs IH]; intros r s rem HR Hq; [reflexivity|]. apply Forall_cons_iff in Hq as [Hn0 Hq].
  cbn [rebReads streamReads]. destruct (rebPull_ok (Z.to_nat n) r s rem n HR Hn0 ltac:(lia) (or_introl Heof)) as (r' & s' & -> & H1' & H2').
  cbn [rbind]. rewrite zlen_firstn by lia. destruct (Z.ltb_spec (zlen rem) n).
  - replace (Z.min n (zlen rem) <? n) with true by lia. rewrite zfirstn_all by lia. reflexivity.
  - replace (Z.min n (zlen rem) <? n) with false by lia. rewrite (IH r' s' (zskipn n rem)); auto.
Qed.
End PullProofs.

Lemma listPull_serves {A} mult N : serves true mult N (@listPull A) (fun s rem => s = rem).
Proof. intros s rem n -> _ _ _ _. eexists; split; reflexivity. Qed.

(** The reads of a stream are its consecutive pieces. *)
Lemma streamReads_concat {A} : forall reqs (rem : list A), Forall (fun n => 0 <= n) reqs ->
  concat (streamReads rem reqs) = zfirstn (fold_right Z.add 0 reqs) rem.
Proof.
  induction reqs as [|n reqs IH]; intros rem H; cbn [streamReads concat fold_right].
  - rewrite zfirstn_0 by lia. reflexivity.
  - inversion H; subst. assert (0 <= fold_right Z.add 0 reqs) by (clear - H3; induction H3; cbn; lia).
    destruct (Z.ltb_spec (zlen rem) n).
    + cbn [concat]. rewrite app_nil_r, zfirstn_all by lia. reflexivity.
    + cbn [concat]. rewrite IH by auto. symmetry. apply zfirstn_split; lia.
Qed.

(** ** Pushing *)
Section PushProofs.
Context {B : Build}.
Context {A S : Type} (push : S -> list (option A) -> Z -> res S) (P : S -> list (option A) -> Prop) (G : option A -> Prop) (N : Z) (mult : bool).
Hypothesis HN : 0 < N.
(** [P s recv]: the sink has taken the frames [recv]; [G]: the frames it can take. *)
Definition takes : Prop := forall s recv outb n, P s recv -> 0 < n -> n mod N = 0 -> (mult = false -> n = N) -> n <= zlen outb -> Forall G (zfirstn n outb) ->
  exists s', push s outb n = Ok s' /\ P s' (recv ++ zfirstn n outb).
Hypothesis HT : takes.

Definition rebW (r : rebuffer A) : Prop :=
  zlen (r_buffer r) = N /\ 0 <= r_offset r < N.
Definition pending (r : rebuffer A) : list (option A) := zfirstn (r_offset r) (r_buffer r).

Lemma pushLoop_ok : forall fuel outb offset inb s recv,
  P s recv -> 0 <= offset < N -> N <= zlen outb -> zlen inb <= Z.of_nat fuel -> N <= offset + zlen inb ->
  Forall G (zfirstn offset outb) -> Forall G inb ->
  exists outb' inb' s' recv', pushLoop push N fuel outb offset inb s = Ok (outb', 0, inb', s') /\
    P s' recv' /\ zlen outb' = zlen outb /\ zlen inb' < N /\ recv' ++ inb' = recv ++ zfirstn offset outb ++ inb /\
    (zlen recv' - zlen recv) mod N = 0 /\
    (zlen recv + N <= zlen recv' /\ zfirstn N outb' = zskipn (zlen recv' - N) recv').
Proof.
  induction fuel as [|fuel IH]; intros outb offset inb s recv HP Ho Hl Hf Hi HG1 HG2.
  { pose proof (zlen_nonneg inb). lia. }
  cbn [pushLoop]. replace (N <=? offset + zlen inb) with true by lia. cbn [negb].
  pose proof (zlen_nonneg inb) as Hz.
  rewrite slice_ok by lia. cbn [rbind]. rewrite (zskipn_0 0) by lia.
  assert (Ls : zlen (zfirstn (N - offset) inb) = N - offset) by (rewrite zlen_firstn; lia).
  rewrite blit_ok by lia. cbn [rbind].
  pose proof (blit_len outb offset (zfirstn (N - offset) inb) ltac:(lia) ltac:(lia)) as Lo.
  pose proof (blit_prefix outb offset (zfirstn (N - offset) inb) ltac:(lia) ltac:(lia)) as Po.
  set (outb1 := zfirstn offset outb ++ zfirstn (N - offset) inb ++ zskipn (offset + zlen (zfirstn (N - offset) inb)) outb) in *.
  rewrite Ls in Po. replace (offset + (N - offset)) with N in Po by lia.
  assert (HG3 : Forall G (zfirstn N outb1)) by (rewrite Po; apply Forall_app; split; [exact HG1|apply Forall_firstn; exact HG2]).
  assert (HG4 : Forall G (zskipn (N - offset) inb)) by (apply Forall_skipn; exact HG2).
  destruct (HT s recv outb1 N HP HN ltac:(apply Z.mod_same; lia) ltac:(reflexivity) ltac:(lia) HG3) as (s1 & -> & HP1). cbn [rbind].
  assert (Li : zlen (zskipn (N - offset) inb) = zlen inb - (N - offset)) by (rewrite zlen_skipn by lia; lia).
  assert (LR : zlen (recv ++ zfirstn N outb1) = zlen recv + N).
  { rewrite zlen_app, Po, zlen_app, zlen_firstn by lia. lia. }
  destruct (Z.le_gt_cases N (zlen (zskipn (N - offset) inb))) as [Hc|Hc].
  - destruct (IH outb1 0 (zskipn (N - offset) inb) s1 (recv ++ zfirstn N outb1)) as (outb' & inb' & s' & recv' & E & HP' & L' & Li' & Eq & M & St1 & St2);
      auto; try lia.
    { rewrite zfirstn_0 by lia. constructor. }
    exists outb', inb', s', recv'. split; [exact E|]. split; [exact HP'|]. split; [lia|]. split; [exact Li'|]. split.
    + rewrite Eq, Po, (zfirstn_0 0) by lia. cbn [app]. rewrite <- !app_assoc. do 2 f_equal. apply zfirstn_skipn.
    + split; [|split; [lia|exact St2]].
      rewrite LR in M. replace (zlen recv' - zlen recv) with (zlen recv' - (zlen recv + N) + 1 * N) by lia.
      rewrite Z.mod_add by lia. exact M.
  - exists outb1, (zskipn (N - offset) inb), s1, (recv ++ zfirstn N outb1). split.
    { destruct fuel; cbn [pushLoop]; replace (N <=? 0 + zlen (zskipn (N - offset) inb)) with false by lia; reflexivity. }
    split; [exact HP1|]. split; [lia|]. split; [lia|]. split.
    + rewrite Po, <- !app_assoc. do 2 f_equal. apply zfirstn_skipn.
    + rewrite LR. split; [replace (zlen recv + N - zlen recv) with (1 * N) by lia; apply Z.mod_mul; lia|]. split; [lia|].
      rewrite zskipn_app_r by lia. rewrite zskipn_0 by lia. reflexivity.
Qed.

Lemma rebPush_ok fuel r outb s inb recv : rebW r -> P s recv -> Forall G (pending r) -> Forall G inb ->
  (if mult then r_offset r + zlen inb <= zlen outb else N <= zlen outb) -> zlen inb <= Z.of_nat fuel ->
  exists r' outb' s' recv', rebPush push N mult fuel r outb s inb = Ok (r', outb', s') /\
    rebW r' /\ P s' recv' /\ zlen outb' = zlen outb /\ recv' ++ pending r' = recv ++ pending r ++ inb /\
    (zlen recv' - zlen recv) mod N = 0 /\
    (mult = false -> (outb' = outb /\ recv' = recv) \/
                     (zlen recv + N <= zlen recv' /\ zfirstn N outb' = zskipn (zlen recv' - N) recv')).
Proof.
  intros [Hb Ho] HP HG1 HG2 Hcap Hf. unfold rebPush. unfold offsetOkPush at 1, rassert at 1.
  replace ((0 <=? r_offset r) && (r_offset r <? N)) with true by lia. cbn [rbind].
  pose proof (zlen_nonneg inb) as Hz.
  assert (Lp : zlen (pending r) = r_offset r) by (unfold pending; rewrite zlen_firstn; lia).
  (* the frames delivered now *)
  assert (Main : exists outb' inb' s' recv' off', 
     (if N <=? r_offset r + zlen inb then
       do seg <- slice (r_buffer r) 0 (r_offset r);
       do outb <- blit outb 0 seg;
       do (outb, offset, inb, s) <-
         (if mult then
            do _ <- rassert (r_offset r <? Z.quot (r_offset r + zlen inb) N * N);
            do seg <- slice inb 0 (Z.quot (r_offset r + zlen inb) N * N - r_offset r);
            do outb <- blit outb (r_offset r) seg;
            do s <- push s outb (Z.quot (r_offset r + zlen inb) N * N);
            Ok (outb, 0, zskipn (Z.quot (r_offset r + zlen inb) N * N - r_offset r) inb, s)
          else pushLoop push N fuel outb (r_offset r) inb s);
       do _ <- rassert (offset =? 0);
       Ok (outb, offset, inb, s)
     else Ok (outb, r_offset r, inb, s)) = Ok (outb', off', inb', s') /\
     P s' recv' /\ zlen outb' = zlen outb /\ off' + zlen inb' < N /\
     ((zlen recv' - zlen recv) mod N = 0 /\
      (mult = false -> (outb' = outb /\ recv' = recv) \/
                       (zlen recv + N <= zlen recv' /\ zfirstn N outb' = zskipn (zlen recv' - N) recv'))) /\
     ((off' = 0 /\ recv' ++ inb' = recv ++ pending r ++ inb) \/ (off' = r_offset r /\ inb' = inb /\ recv' = recv))).
  { destruct (Z.leb_spec N (r_offset r + zlen inb)) as [Hfull|Hpart].
    - rewrite slice_ok by lia. cbn [rbind]. rewrite (zskipn_0 0) by lia. fold (pending r).
      rewrite blit_ok by (destruct mult; lia). cbn [rbind].
      pose proof (blit_len outb 0 (pending r) ltac:(lia) ltac:(destruct mult; lia)) as Lo.
      pose proof (blit_prefix outb 0 (pending r) ltac:(lia) ltac:(destruct mult; lia)) as Po.
      set (outb1 := zfirstn 0 outb ++ pending r ++ zskipn (0 + zlen (pending r)) outb) in *.
      rewrite Lp, Z.add_0_l, (zfirstn_0 0) in Po by lia. cbn [app] in Po.
      destruct mult eqn:Emu.
      + rewrite Z.quot_div_nonneg by lia.
        pose proof (Z.div_mod (r_offset r + zlen inb) N ltac:(lia)) as DM.
        pose proof (Z.mod_pos_bound (r_offset r + zlen inb) N ltac:(lia)) as MB.
        set (d := (r_offset r + zlen inb) / N) in *. set (m := (r_offset r + zlen inb) mod N) in *. clearbody d m.
        assert (Hd : 0 < d) by nia.
        assert (Hn : d * N = r_offset r + zlen inb - m) by lia.
        assert (Hn0 : r_offset r < d * N) by nia.
        set (n := d * N) in *.
        assert (Hm : n mod N = 0) by (unfold n; apply Z.mod_mul; lia). clearbody n.
        unfold rassert. replace (r_offset r <? n) with true by lia. cbn [rbind].
        rewrite slice_ok by lia. cbn [rbind]. rewrite (zskipn_0 0) by lia.
        assert (Ls : zlen (zfirstn (n - r_offset r) inb) = n - r_offset r) by (rewrite zlen_firstn; lia).
        rewrite blit_ok by lia. cbn [rbind].
        pose proof (blit_len outb1 (r_offset r) (zfirstn (n - r_offset r) inb) ltac:(lia) ltac:(lia)) as Lo2.
        pose proof (blit_prefix outb1 (r_offset r) (zfirstn (n - r_offset r) inb) ltac:(lia) ltac:(lia)) as Po2.
        set (outb2 := zfirstn (r_offset r) outb1 ++ zfirstn (n - r_offset r) inb ++ zskipn (r_offset r + zlen (zfirstn (n - r_offset r) inb)) outb1) in *.
        rewrite Ls in Po2. replace (r_offset r + (n - r_offset r)) with n in Po2 by lia. rewrite Po in Po2.
        assert (HG3 : Forall G (zfirstn n outb2)) by (rewrite Po2; apply Forall_app; split; [exact HG1|apply Forall_firstn; exact HG2]).
        destruct (HT s recv outb2 n HP ltac:(lia) Hm ltac:(congruence) ltac:(lia) HG3) as (s1 & -> & HP1). cbn [rbind]. cbn [Z.eqb rassert rbind].
        exists outb2, (zskipn (n - r_offset r) inb), s1, (recv ++ zfirstn n outb2), 0.
        split; [reflexivity|]. split; [exact HP1|]. split; [lia|].
        assert (Li : zlen (zskipn (n - r_offset r) inb) = m) by (rewrite zlen_skipn by lia; lia).
        split; [lia|]. split.
        { split; [|discriminate]. rewrite zlen_app, Po2, zlen_app, Ls, Lp. replace (zlen recv + (r_offset r + (n - r_offset r)) - zlen recv) with n by lia. exact Hm. }
        left. split; [reflexivity|]. rewrite Po2, <- !app_assoc. do 2 f_equal. apply zfirstn_skipn.
      + destruct (pushLoop_ok fuel outb1 (r_offset r) inb s recv) as (outb' & inb' & s' & recv' & E & HP' & L' & Li' & Eq & M & St1 & St2); auto; try lia.
        { rewrite Po. exact HG1. }
        rewrite E. cbn [rbind]. cbn [Z.eqb rassert rbind]. exists outb', inb', s', recv', 0. split; [reflexivity|].
        split; [exact HP'|]. split; [lia|]. split; [lia|]. split; [split; [exact M|intros _; right; exact (conj St1 St2)]|]. left. split; [reflexivity|].
        rewrite Eq, Po. reflexivity.
    - exists outb, inb, s, recv, (r_offset r). split; [reflexivity|]. split; [exact HP|]. split; [reflexivity|]. split; [lia|].
      split; [split; [rewrite Z.sub_diag; apply Z.mod_0_l; lia|auto]|]. right. auto. }
  destruct Main as (outb' & inb' & s' & recv' & off' & -> & HP' & Lo & Lt & M & D). cbn [rbind]. unfold rassert at 1.
  replace (off' + zlen inb' <? N) with true by lia. cbn [rbind]. pose proof (zlen_nonneg inb') as Hz'.
  assert (Hoff : 0 <= off') by (destruct D as [[-> _]|[-> _]]; lia).
  rewrite blit_ok by lia. cbn [rbind]. unfold offsetOkPush, rassert.
  replace ((0 <=? off' + zlen inb') && (off' + zlen inb' <? N)) with true by lia. cbn [rbind].
  eexists _, _, _, recv'. split; [reflexivity|]. split.
  { split; cbn [r_buffer r_offset]; [rewrite blit_len; lia|lia]. }
  split; [exact HP'|]. split; [exact Lo|]. split; [|split; apply M].
  unfold pending at 1. cbn [r_buffer r_offset]. rewrite blit_prefix by lia.
  destruct D as [[-> D]|(-> & -> & ->)].
  - rewrite zfirstn_0 by lia. exact D.
  - unfold pending. reflexivity.
Qed.
End PushProofs.

Lemma recordPush_takes {A} N mult : takes (@recordPush A) (fun s recv => concat s = recv /\ Forall (fun c => 0 < zlen c /\ zlen c mod N = 0) s) (fun _ => True) N mult.
Proof.
  intros s recv outb n [<- F] Hn Hm _ Hl _. eexists; split; [reflexivity|]. split.
  - rewrite concat_app. cbn. now rewrite app_nil_r.
  - apply Forall_app. split; [exact F|]. constructor; [|constructor]. rewrite zlen_firstn by lia.
    rewrite Z.min_l by lia. auto.
Qed.

Lemma rebInitPush_W {A} N : 0 < N -> rebW N (@rebInitPush A N) /\ pending (@rebInitPush A N) = [].
Proof.
  intros H. split; [split; cbn; [apply zlen_repeat; lia|lia]|]. unfold pending. cbn. reflexivity.
Qed.
