(** Proofs about [MSADPCM]. *)
From Verif Require Import Prelude PreludeFacts ByteOrderProofs ConvertProofs MSADPCM MSADPCMSpec.

Definition inv (st : ms_state) : Prop :=
  16 <= delta st <= 52429 /\ s16ok (sample1 st) /\ s16ok (sample2 st).

Lemma predict_ok st c : s16ok (sample1 st) -> s16ok (sample2 st) -> coefOk c ->
  exists p, predict st c = Ok p /\ -98304 <= p <= 98304.
Proof.
  unfold predict, coefOk, s16ok. destruct c as [c0 c1]. cbn [fst snd]. intros H1 H2 Hc.
  set (a := sample1 st) in *. set (b := sample2 st) in *. clearbody a b.
  assert (A : Z.abs (a * c0) <= 32768 * Z.abs c0) by (rewrite Z.abs_mul; apply Z.mul_le_mono_nonneg_r; lia).
  assert (B : Z.abs (b * c1) <= 32768 * Z.abs c1) by (rewrite Z.abs_mul; apply Z.mul_le_mono_nonneg_r; lia).
  set (u := a * c0) in *. set (v := b * c1) in *. clearbody u v.
  rewrite (ck32_ok u) by (zpow; lia). cbn [rbind]. rewrite (ck32_ok v) by (zpow; lia). cbn [rbind].
  rewrite (ck32_ok (u + v)) by (zpow; lia). cbn [rbind]. eexists; split; [reflexivity|].
  rewrite Z.shiftr_div_pow2 by lia. zpow. lia.
Qed.

Lemma quot_facts num d : 0 < d ->
  (0 <= num -> d * Z.quot num d <= num < d * Z.quot num d + d) /\
  (num <= 0 -> d * Z.quot num d - d < num <= d * Z.quot num d).
Proof.
  intros Hd. pose proof (Z.quot_rem num d ltac:(lia)) as E. split; intros H.
  - pose proof (Z.rem_bound_pos num d H Hd). lia.
  - pose proof (Z.rem_bound_pos_neg num d Hd H). lia.
Qed.

Lemma clampZ_range x lo hi : lo <= hi -> lo <= clampZ x lo hi <= hi.
Proof. unfold clampZ; intros. destruct (Z.ltb_spec x lo); [lia|]. rewrite Z.gtb_ltb. destruct (Z.ltb_spec hi x); lia. Qed.

Lemma s16_clamp x : s16 (clampZ x (-32768) 32767) = clampZ x (-32768) 32767.
Proof. apply sN_small; [lia|]. pose proof (clampZ_range x (-32768) 32767). change (2 ^ (16 - 1)) with 32768. lia. Qed.

Lemma code_facts num d c : 16 <= d -> c = clampZ (Z.quot num d) (-8) 7 ->
  -8 <= c <= 7 /\ (0 < c -> c * d <= num) /\ (c < 0 -> num <= c * d) .
Proof.
  intros Hd ->. set (q := Z.quot num d). destruct (quot_facts num d ltac:(lia)) as [F1 F2]. fold q in F1, F2.
  clearbody q. pose proof (clampZ_range q (-8) 7 ltac:(lia)). split; [lia|].
  unfold clampZ. destruct (Z.ltb_spec q (-8)).
  - split; intros; [lia|]. assert (num <= 0 \/ 0 <= num) as [Hn|Hn] by lia; [|nia]. specialize (F2 Hn). nia.
  - rewrite Z.gtb_ltb. destruct (Z.ltb_spec 7 q); split; intros; try lia.
    + assert (num <= 0 \/ 0 <= num) as [Hn|Hn] by lia; [nia|]. specialize (F1 Hn). nia.
    + assert (num <= 0 \/ 0 <= num) as [Hn|Hn] by lia; [nia|]. specialize (F1 Hn). nia.
    + assert (num <= 0 \/ 0 <= num) as [Hn|Hn] by lia; [|nia]. specialize (F2 Hn). nia.
Qed.

Lemma encode_ok st x c : inv st -> s16ok x -> coefOk c ->
  exists code st', encodeSample st x c = Ok (code, st') /\ 0 <= code < 16 /\ inv st' /\
    predictorIndex st' = predictorIndex st /\ sample2 st' = sample1 st.
Proof.
  intros (Hd & H1 & H2) Hx Hc. unfold encodeSample.
  destruct (predict_ok st c H1 H2 Hc) as (p & -> & Hp). cbn [rbind].
  unfold s16ok in Hx. set (d := delta st) in *.
  rewrite (ck32_ok (x - p)) by (zpow; lia). cbn [rbind].
  set (bias := if x - p <? 0 then - Z.quot d 2 else Z.quot d 2).
  assert (Hb : bias = if x - p <? 0 then - (d / 2) else d / 2).
  { unfold bias. rewrite Z.quot_div_nonneg by lia. reflexivity. }
  clearbody bias.
  assert (HB : Z.abs bias <= d / 2) by (rewrite Hb; destruct (x - p <? 0); lia). clear Hb.
  rewrite (ck32_ok (x - p + bias)) by (zpow; lia). cbn [rbind].
  assert (Hz : (d =? 0) = false) by lia. rewrite Hz.
  remember (clampZ (Z.quot (x - p + bias) d) (-8) 7) as k eqn:Ek.
  destruct (code_facts (x - p + bias) d k ltac:(lia) Ek) as (Hk & K1 & K2). clear Ek.
  assert (NP : (0 < k -> k * d <= 131072 + d / 2) /\ (k < 0 -> k * d >= - 131072 - d / 2)).
  { split; intros Hk0; [specialize (K1 Hk0) | specialize (K2 Hk0)]; lia. }
  destruct NP as [N1 N2]. clear K1 K2 HB Hz.
  assert (Q : forall v a i t, inv (mkMs i (if Z.shiftr a 8 <? 16 then 16 else Z.shiftr a 8) (s16 (clampZ v (-32768) 32767)) t)
     \/ ~ (a < 52430 * 256) \/ ~ s16ok t).
  { intros v a i t. destruct (Z_lt_dec a (52430 * 256)) as [Ha|Ha]; [|auto].
    destruct (Z_le_dec (-32768) t); [|right; right; unfold s16ok; lia].
    destruct (Z_le_dec t 32767); [|right; right; unfold s16ok; lia].
    left. unfold inv. cbn [delta sample1 sample2]. rewrite Z.shiftr_div_pow2 by lia. zpow.
    split; [destruct (Z.ltb_spec (a / 256) 16); lia|]. rewrite s16_clamp. unfold s16ok.
    pose proof (clampZ_range v (-32768) 32767). lia. }
  assert (C : k = -8 \/ k = -7 \/ k = -6 \/ k = -5 \/ k = -4 \/ k = -3 \/ k = -2 \/ k = -1 \/ k = 0 \/ k = 1 \/ k = 2 \/
     k = 3 \/ k = 4 \/ k = 5 \/ k = 6 \/ k = 7) by lia.
  clear Hk.
  repeat match type of C with _ \/ _ => destruct C as [C|C] end; subst k;
  match goal with |- context [Z.land ?c 15] => let v := eval vm_compute in (Z.land c 15) in change (Z.land c 15) with v end;
  match goal with |- context [signedCode ?c] => let v := eval vm_compute in (signedCode c) in change (signedCode c) with v end;
  match goal with |- context [aget adaptationTable ?c] => let v := eval vm_compute in (aget adaptationTable c) in change (aget adaptationTable c) with v end;
  (rewrite (ck32_ok (_ * d)) by (zpow; lia)); cbn [rbind];
  (rewrite (ck32_ok (p + _)) by (zpow; lia)); cbn [rbind];
  (rewrite (ck32_ok (_ * d)) by (zpow; lia)); cbn [rbind];
  (eexists; eexists; split; [reflexivity|]); (split; [lia|]); (split; [|split; reflexivity]);
  match goal with |- inv (mkMs ?i (if Z.shiftr ?a 8 <? 16 then _ else _) (s16 (clampZ ?v _ _)) ?t) =>
    destruct (Q v a i t) as [G|[G|G]]; [exact G|exfalso; apply G; lia|exfalso; apply G; exact H1] end.
Qed.

(** The decoder, given the code, computes the encoder's new state: no hypotheses needed. *)
Lemma encode_decode st x c code st' : encodeSample st x c = Ok (code, st') ->
  decodeSample st code c = Ok (sample1 st', st').
Proof.
  unfold encodeSample, decodeSample. intros H.
  apply rbind_Ok in H as (p & Ep & H). rewrite Ep. cbn [rbind].
  apply rbind_Ok in H as (e & _ & H). apply rbind_Ok in H as (num & _ & H).
  destruct (delta st =? 0); [discriminate|].
  apply rbind_Ok in H as (d & Ed & H). apply rbind_Ok in H as (l & El & H).
  apply rbind_Ok in H as (a & Ea & H). apply rbind_Ok in H as (t & Et & H).
  inversion H; subst. rewrite Ed. cbn [rbind]. rewrite El. cbn [rbind]. rewrite Ea. cbn [rbind].
  rewrite Z.mul_comm, Et. reflexivity.
Qed.

Lemma mstep_spec st x c : inv st -> s16ok x -> coefOk c ->
  exists code, encodeSample st x c = Ok (code, mstep c st x) /\ 0 <= code < 16 /\ inv (mstep c st x) /\
    decodeSample st code c = Ok (sample1 (mstep c st x), mstep c st x).
Proof.
  intros Hi Hx Hc. destruct (encode_ok st x c Hi Hx Hc) as (code & st' & E & Hcode & Hi' & _).
  exists code. unfold mstep. rewrite E. split; [reflexivity|]. split; [exact Hcode|]. split; [exact Hi'|]. apply (encode_decode _ _ _ _ _ E).
Qed.

Definition mfin (c : Z * Z) (st : ms_state) (xs : list Z) : ms_state := fold_left (mstep c) xs st.

Lemma mrecon_length c xs : forall st, length (mrecon c st xs) = length xs.
Proof. induction xs as [|x xs IH]; intros st; cbn; auto. Qed.

Lemma mrecon_s16 c xs : forall st, coefOk c -> inv st -> Forall s16ok xs -> Forall s16ok (mrecon c st xs).
Proof.
  induction xs as [|x xs IH]; intros st Hc Hi Hx; cbn; constructor; inversion Hx; subst.
  - destruct (mstep_spec st x c Hi ltac:(auto) Hc) as (_ & _ & _ & (_ & H & _) & _). exact H.
  - apply IH; auto. destruct (mstep_spec st x c Hi ltac:(auto) Hc) as (_ & _ & _ & H & _). exact H.
Qed.

Lemma codes_byte a b : 0 <= a < 16 -> 0 <= b < 16 ->
  Z.shiftr (Z.lor (Z.shiftl a 4) b) 4 = a /\ Z.land (Z.lor (Z.shiftl a 4) b) 15 = b /\
  0 <= Z.lor (Z.shiftl a 4) b < 256.
Proof.
  intros Ha Hb. rewrite Z.shiftl_mul_pow2 by lia. rewrite lor_disjoint' by (zpow; lia).
  change 15 with (Z.ones 4). rewrite Z.land_ones, Z.shiftr_div_pow2 by lia. zpow. lia.
Qed.

Lemma mono_loop c n : forall xs st, length xs = (2 * n)%nat -> coefOk c -> inv st -> Forall s16ok xs ->
  exists bytes, encodePairs true c c st st xs = Ok (bytes, mfin c st xs, mfin c st xs) /\
    decodePairs true c c st st bytes = Ok (mrecon c st xs, mfin c st xs, mfin c st xs) /\
    length bytes = n /\ bytes_ok bytes = true /\ inv (mfin c st xs).
Proof.
  induction n as [|n IH]; intros xs st Hl Hc Hi Hx.
  - destruct xs; [|discriminate]. exists []. cbn. auto.
  - destruct xs as [|x [|y xs]]; try (cbn in Hl; lia). inversion Hx as [|? ? X1 X2]; subst. inversion X2 as [|? ? X3 X4]; subst.
    destruct (mstep_spec st x c Hi X1 Hc) as (a & E1 & Ha & I1 & D1).
    destruct (mstep_spec _ y c I1 X3 Hc) as (b & E2 & Hb & I2 & D2).
    destruct (IH xs _ ltac:(cbn in Hl; lia) Hc I2 X4) as (bytes & E & D & L & B & F).
    destruct (codes_byte a b Ha Hb) as (N1 & N2 & N3).
    exists (Z.lor (Z.shiftl a 4) b :: bytes). cbn [encodePairs decodePairs].
    rewrite E1. cbn [rbind]. rewrite E2. cbn [rbind]. rewrite E. cbn [rbind]. split; [reflexivity|].
    rewrite N1, N2, D1. cbn [rbind]. rewrite D2. cbn [rbind]. rewrite D. cbn [rbind]. split; [reflexivity|].
    split; [cbn; congruence|]. split; [|exact F].
    cbn [bytes_ok forallb]. fold (bytes_ok bytes). rewrite B, andb_true_r. now apply byte_ok_spec.
Qed.

Lemma stereo_loop c0 c1 ls : forall rs s0 s1, length rs = length ls -> coefOk c0 -> coefOk c1 -> inv s0 -> inv s1 ->
  Forall s16ok ls -> Forall s16ok rs ->
  exists bytes, encodePairs false c0 c1 s0 s1 (zip2 ls rs) = Ok (bytes, mfin c0 s0 ls, mfin c1 s1 rs) /\
    decodePairs false c0 c1 s0 s1 bytes = Ok (zip2 (mrecon c0 s0 ls) (mrecon c1 s1 rs), mfin c0 s0 ls, mfin c1 s1 rs) /\
    length bytes = length ls /\ bytes_ok bytes = true.
Proof.
  induction ls as [|x ls IH]; intros rs s0 s1 Hl Hc0 Hc1 Hi0 Hi1 Hx Hy.
  - destruct rs; [|discriminate]. exists []. cbn. auto.
  - destruct rs as [|y rs]; [discriminate|]. inversion Hx; inversion Hy; subst.
    destruct (mstep_spec s0 x c0 Hi0 ltac:(auto) Hc0) as (a & E1 & Ha & I1 & D1).
    destruct (mstep_spec s1 y c1 Hi1 ltac:(auto) Hc1) as (b & E2 & Hb & I2 & D2).
    destruct (IH rs _ _ ltac:(cbn in Hl; lia) Hc0 Hc1 I1 I2 ltac:(auto) ltac:(auto)) as (bytes & E & D & L & B).
    destruct (codes_byte a b Ha Hb) as (N1 & N2 & N3).
    exists (Z.lor (Z.shiftl a 4) b :: bytes). cbn [encodePairs decodePairs zip2 mrecon].
    rewrite E1. cbn [rbind]. rewrite E2. cbn [rbind]. rewrite E. cbn [rbind]. split; [reflexivity|].
    rewrite N1, N2, D1. cbn [rbind]. rewrite D2. cbn [rbind]. rewrite D. cbn [rbind]. split; [reflexivity|].
    split; [cbn; congruence|].
    cbn [bytes_ok forallb]. fold (bytes_ok bytes). rewrite B, andb_true_r. now apply byte_ok_spec.
Qed.

(** ** Predictor choice *)
Lemma predictorError_ok x0 x1 x2 x3 x4 c : s16ok x0 -> s16ok x1 -> s16ok x2 -> s16ok x3 -> s16ok x4 -> coefOk c ->
  exists e, predictorError x0 x1 x2 x3 x4 c = Ok e /\ 0 <= e <= 32768.
Proof.
  intros H0 H1 H2 H3 H4 Hc. destruct c as [c0 c1]. unfold coefOk in Hc. cbn [fst snd] in Hc.
  assert (G : forall c p2 p1, s16ok c -> s16ok p2 -> s16ok p1 -> exists e,
    (do a <- ck32 (c0 * p1); do b <- ck32 (c1 * p2); do t <- ck32 (a + b);
     do e <- ck32 (c - Z.shiftr t 8); ck32 (Z.abs e)) = Ok e /\ 0 <= e <= 131072).
  { unfold s16ok. intros c p2 p1 Hc' Hp2 Hp1.
    assert (A : Z.abs (c0 * p1) <= Z.abs c0 * 32768) by (rewrite Z.abs_mul; apply Z.mul_le_mono_nonneg_l; lia).
    assert (B : Z.abs (c1 * p2) <= Z.abs c1 * 32768) by (rewrite Z.abs_mul; apply Z.mul_le_mono_nonneg_l; lia).
    set (u := c0 * p1) in *. set (v := c1 * p2) in *. clearbody u v.
    rewrite (ck32_ok u) by (zpow; lia). cbn [rbind]. rewrite (ck32_ok v) by (zpow; lia). cbn [rbind].
    rewrite (ck32_ok (u + v)) by (zpow; lia). cbn [rbind]. rewrite Z.shiftr_div_pow2 by lia. change (2 ^ 8) with 256.
    rewrite (ck32_ok (c - _)) by (zpow; lia). cbn [rbind]. rewrite ck32_ok by (zpow; lia).
    eexists; split; [reflexivity|]. lia. }
  unfold predictorError. cbn [fst snd].
  destruct (G x2 x0 x1 H2 H0 H1) as (e2 & -> & B2). cbn [rbind].
  destruct (G x3 x1 x2 H3 H1 H2) as (e3 & -> & B3). cbn [rbind].
  rewrite (ck32_ok (e2 + e3)) by (zpow; lia). cbn [rbind].
  destruct (G x4 x2 x3 H4 H2 H3) as (e4 & -> & B4). cbn [rbind].
  rewrite (ck32_ok (e2 + e3 + e4)) by (zpow; lia). cbn [rbind].
  eexists; split; [reflexivity|]. rewrite Z.quot_div_nonneg by lia. lia.
Qed.

Lemma choose_ok x0 x1 x2 x3 x4 coefs : s16ok x0 -> s16ok x1 -> s16ok x2 -> s16ok x3 -> s16ok x4 -> Forall coefOk coefs ->
  forall k bestI bestE, 0 <= bestE ->
  exists i e, choose x0 x1 x2 x3 x4 k coefs bestI bestE = Ok (i, e) /\ 0 <= e <= bestE /\
    (forall c, In c coefs -> exists e', predictorError x0 x1 x2 x3 x4 c = Ok e' /\ e <= e') /\
    ((i = bestI /\ e = bestE) \/
     (k <= i < k + zlen coefs /\ exists c, nth_error coefs (Z.to_nat (i - k)) = Some c /\
        predictorError x0 x1 x2 x3 x4 c = Ok e)).
Proof.
  intros H0 H1 H2 H3 H4 Hc. induction Hc as [|c coefs Hc Hcs IH]; intros k bestI bestE Hb.
  - exists bestI, bestE. cbn. repeat split; try lia; auto.
  - cbn [choose]. destruct (predictorError_ok x0 x1 x2 x3 x4 c) as (e & Ee & He); auto. rewrite Ee. cbn [rbind].
    rewrite zlen_cons. pose proof (zlen_nonneg coefs).
    destruct (Z.ltb_spec e bestE) as [Hlt|Hge].
    + destruct (Z.eqb_spec e 0) as [->|Hnz].
      * exists k, 0. repeat split; try lia.
        { intros c' Hc'. rewrite Forall_forall in Hcs. destruct Hc' as [<-|Hin]; [exists 0; split; auto; lia|].
          destruct (predictorError_ok x0 x1 x2 x3 x4 c') as (e' & E' & B'); auto. exists e'. split; auto; lia. }
        right. split; [lia|]. exists c. rewrite Z.sub_diag. auto.
      * destruct (IH (k + 1) k e ltac:(lia)) as (i & e' & E' & B' & M' & D'). exists i, e'. split; [exact E'|].
        split; [lia|]. split.
        { intros c' [<-|Hin]; [exists e; split; auto; lia|]. auto. }
        right. destruct D' as [[-> ->]|[Hi (c' & Hn & Hp)]].
        { split; [lia|]. exists c. rewrite Z.sub_diag. auto. }
        split; [lia|]. exists c'. replace (Z.to_nat (i - k)) with (S (Z.to_nat (i - (k + 1)))) by lia. auto.
    + destruct (Z.eqb_spec e 0) as [->|Hnz].
      * exists bestI, bestE. repeat split; try lia; auto.
        intros c' Hc'. rewrite Forall_forall in Hcs. destruct Hc' as [<-|Hin]; [exists 0; split; auto; lia|].
        destruct (predictorError_ok x0 x1 x2 x3 x4 c') as (e' & E' & B'); auto. exists e'. split; auto; lia.
      * destruct (IH (k + 1) bestI bestE ltac:(lia)) as (i & e' & E' & B' & M' & D'). exists i, e'. split; [exact E'|].
        split; [lia|]. split.
        { intros c' [<-|Hin]; [exists e; split; auto; lia|]. auto. }
        destruct D' as [[-> ->]|[Hi (c' & Hn & Hp)]]; [auto|right].
        split; [lia|]. exists c'. replace (Z.to_nat (i - k)) with (S (Z.to_nat (i - (k + 1)))) by lia. auto.
Qed.

Lemma choosePredictor_ok coefs x0 x1 x2 x3 x4 st : s16ok x0 -> s16ok x1 -> s16ok x2 -> s16ok x3 -> s16ok x4 ->
  Forall coefOk coefs -> coefs <> [] -> zlen coefs <= 256 ->
  exists i e c, choosePredictor coefs x0 x1 x2 x3 x4 st = Ok (mkMs i e (sample1 st) (sample2 st)) /\
    0 <= i < zlen coefs /\ i < 256 /\ 16 <= e <= 32768 /\ aget coefs i = Ok c /\ coefOk c.
Proof.
  intros H0 H1 H2 H3 H4 Hc Hne Hlen. unfold choosePredictor.
  destruct (choose_ok x0 x1 x2 x3 x4 coefs H0 H1 H2 H3 H4 Hc 0 0 2147483647 ltac:(lia)) as (i & e & E & B & M & D).
  rewrite E. cbn [rbind].
  destruct coefs as [|c0 coefs']; [congruence|]. set (coefs := c0 :: coefs') in *.
  assert (He : e <= 32768).
  { destruct (M c0 (or_introl eq_refl)) as (e' & E' & L').
    inversion Hc; subst. destruct (predictorError_ok x0 x1 x2 x3 x4 c0) as (e'' & E'' & B''); auto.
    rewrite E'' in E'. inversion E'; subst. lia. }
  destruct D as [[_ ->]|[Hi (c & Hn & Hp)]]; [lia|].
  rewrite Z.sub_0_r in Hn.
  exists i, (if e <? 16 then 16 else e), c. split.
  { do 2 f_equal. unfold u8, uN. zpow. lia. }
  split; [lia|]. split; [lia|]. split; [destruct (Z.ltb_spec e 16); lia|]. split.
  - unfold aget. destruct (Z.ltb_spec i 0); [lia|]. now rewrite Hn.
  - rewrite Forall_forall in Hc. apply Hc. eapply nth_error_In; eauto.
Qed.

(** ** Header fields *)
Lemma put_get x : exists lo hi, put16 x = [lo; hi] /\ get16 lo hi = x mod 65536 /\ byte_ok lo = true /\ byte_ok hi = true.
Proof.
  unfold put16, get16. eexists _, _. split; [reflexivity|].
  change 255 with (Z.ones 8). rewrite Z.land_ones, Z.shiftr_div_pow2 by lia. unfold u8, uN.
  rewrite Z.shiftl_mul_pow2 by lia. rewrite lor_disjoint' by (zpow; lia). unfold byte_ok. zpow. lia.
Qed.

Lemma s16_mod x : s16ok x -> s16 (x mod 65536) = x.
Proof. unfold s16ok, s16, sN. intros. zpow. lia. Qed.

Lemma block1_lockstep {B : Build} coefs st samples n : Forall coefOk coefs -> coefs <> [] -> zlen coefs <= 256 ->
  Forall s16ok samples -> length samples = (2 + 2 * n)%nat -> (2 <= n)%nat ->
  exists bytes st' i e c x0 x1 rest, samples = x0 :: x1 :: rest /\
    encodeBlock1 coefs st samples = Ok (bytes, st') /\ aget coefs i = Ok c /\ 16 <= e <= 32768 /\
    decodeBlock1 coefs n bytes = Ok (x0 :: x1 :: mrecon c (mkMs i e x1 x0) rest) /\
    Forall s16ok (mrecon c (mkMs i e x1 x0) rest) /\
    length bytes = (7 + n)%nat /\ bytes_ok bytes = true /\ inv st'.
Proof.
  intros Hc Hne Hlen Hs Hl Hn.
  destruct samples as [|x0 [|x1 [|x2 [|x3 [|x4 rest]]]]]; try (cbn in Hl; lia).
  pose proof Hs as Hs'.
  repeat match goal with H : Forall s16ok (_ :: _) |- _ => inversion H; clear H; subst end.
  destruct (choosePredictor_ok coefs x0 x1 x2 x3 x4 st) as (i & e & c & E & Hi & Hi' & He & Ec & Hco); auto.
  assert (I0 : inv (mkMs i e x1 x0)) by (unfold inv; cbn [delta sample1 sample2]; repeat split; try lia; unfold s16ok in *; lia).
  destruct (mono_loop c n (x2 :: x3 :: x4 :: rest) (mkMs i e x1 x0)) as (bytes & E2 & D2 & L2 & B2 & F2).
  { cbn in Hl |- *. lia. } { exact Hco. } { exact I0. } { repeat (apply Forall_cons; [assumption|]); assumption. }
  destruct (put_get e) as (e0 & e1 & Pe & Ge & Be0 & Be1).
  destruct (put_get x1) as (a0 & a1 & Pa & Ga & Ba0 & Ba1).
  destruct (put_get x0) as (b0 & b1 & Pb & Gb & Bb0 & Bb1).
  eexists _, _, i, e, c, x0, x1, _. split; [reflexivity|]. split.
  { unfold encodeBlock1. rewrite E. cbn [rbind predictorIndex delta sample1 sample2]. rewrite Ec. cbn [rbind skipn].
    rewrite E2. cbn [rbind]. rewrite Pe, Pa, Pb. cbn [app]. reflexivity. }
  split; [exact Ec|]. split; [exact He|]. split.
  { cbn [decodeBlock1]. unfold rassert. replace (i <? zlen coefs) with true by lia. cbn [rbind]. rewrite Ec. cbn [rbind].
    rewrite Ge, Ga, Gb. rewrite !s16_mod by auto. rewrite (Z.mod_small e) by lia.
    rewrite L2, Nat.ltb_irrefl. rewrite <- L2, firstn_all. rewrite D2. reflexivity. }
  split. { apply mrecon_s16; auto. }
  split; [cbn; lia|]. split; [|exact F2].
  cbn [bytes_ok forallb]. fold (bytes_ok bytes). rewrite B2, Be0, Be1, Ba0, Ba1, Bb0, Bb1. unfold byte_ok. lia.
Qed.

Lemma zip2_length l : forall r, length l = length r -> length (zip2 l r) = (2 * length l)%nat.
Proof. induction l; intros [|y r] H; cbn in *; try lia. rewrite IHl by lia. lia. Qed.

Lemma block2_lockstep {B : Build} coefs sl sr ls rs n : Forall coefOk coefs -> coefs <> [] -> zlen coefs <= 256 ->
  Forall s16ok ls -> Forall s16ok rs -> length ls = (2 + n)%nat -> length rs = (2 + n)%nat -> (3 <= n)%nat ->
  exists bytes sl' sr' i j d e cl cr l0 l1 l r0 r1 r, ls = l0 :: l1 :: l /\ rs = r0 :: r1 :: r /\
    encodeBlock2 coefs sl sr (zip2 ls rs) = Ok (bytes, sl', sr') /\
    aget coefs i = Ok cl /\ aget coefs j = Ok cr /\ 16 <= d <= 32768 /\ 16 <= e <= 32768 /\
    decodeBlock2 coefs n bytes = Ok (zip2 (l0 :: l1 :: mrecon cl (mkMs i d l1 l0) l) (r0 :: r1 :: mrecon cr (mkMs j e r1 r0) r)) /\
    Forall s16ok (mrecon cl (mkMs i d l1 l0) l) /\ Forall s16ok (mrecon cr (mkMs j e r1 r0) r) /\
    length bytes = (14 + n)%nat /\ bytes_ok bytes = true.
Proof.
  intros Hc Hne Hlen Hls Hrs Hl Hr Hn.
  destruct ls as [|l0 [|l1 [|l2 [|l3 [|l4 l]]]]]; try (cbn in Hl; lia).
  destruct rs as [|r0 [|r1 [|r2 [|r3 [|r4 r]]]]]; try (cbn in Hr; lia).
  repeat match goal with H : Forall s16ok (_ :: _) |- _ => inversion H; clear H; subst end.
  destruct (choosePredictor_ok coefs l0 l1 l2 l3 l4 sl) as (i & d & cl & El & Hi & Hi' & Hd & Ecl & Hcl); auto.
  destruct (choosePredictor_ok coefs r0 r1 r2 r3 r4 sr) as (j & e & cr & Er & Hj & Hj' & He & Ecr & Hcr); auto.
  assert (I0 : inv (mkMs i d l1 l0)) by (unfold inv; cbn [delta sample1 sample2]; repeat split; try lia; unfold s16ok in *; lia).
  assert (I1 : inv (mkMs j e r1 r0)) by (unfold inv; cbn [delta sample1 sample2]; repeat split; try lia; unfold s16ok in *; lia).
  destruct (stereo_loop cl cr (l2 :: l3 :: l4 :: l) (r2 :: r3 :: r4 :: r) (mkMs i d l1 l0) (mkMs j e r1 r0)) as (bytes & E2 & D2 & L2 & B2);
    auto. { cbn in *; lia. }
  destruct (put_get d) as (d0 & d1 & Pd & Gd & Bd0 & Bd1).
  destruct (put_get e) as (e0 & e1 & Pe & Ge & Be0 & Be1).
  destruct (put_get l1) as (a0 & a1 & Pa & Ga & Ba0 & Ba1).
  destruct (put_get r1) as (b0 & b1 & Pb & Gb & Bb0 & Bb1).
  destruct (put_get l0) as (f0 & f1 & Pf & Gf & Bf0 & Bf1).
  destruct (put_get r0) as (g0 & g1 & Pg & Gg & Bg0 & Bg1).
  eexists _, _, _, i, j, d, e, cl, cr, l0, l1, _, r0, r1, _. split; [reflexivity|]. split; [reflexivity|]. split.
  { cbn [zip2 encodeBlock2]. rewrite El. cbn [rbind]. rewrite Er. cbn [rbind predictorIndex delta sample1 sample2].
    rewrite Ecl. cbn [rbind]. rewrite Ecr. cbn [rbind skipn]. cbn [zip2] in E2. rewrite E2. cbn [rbind].
    rewrite Pd, Pe, Pa, Pb, Pf, Pg. cbn [app]. reflexivity. }
  split; [exact Ecl|]. split; [exact Ecr|]. split; [exact Hd|]. split; [exact He|].
  assert (LB : length bytes = n) by (rewrite L2; cbn in Hl |- *; lia).
  split.
  { cbn [decodeBlock2]. unfold rassert. replace (i <? zlen coefs) with true by lia. cbn [rbind].
    replace (j <? zlen coefs) with true by lia. cbn [rbind]. rewrite Ecl. cbn [rbind]. rewrite Ecr. cbn [rbind].
    rewrite Gd, Ge, Ga, Gb, Gf, Gg. rewrite !s16_mod by auto. rewrite (Z.mod_small d), (Z.mod_small e) by lia.
    rewrite LB, Nat.ltb_irrefl. rewrite <- LB, firstn_all. rewrite D2. reflexivity. }
  split. { apply mrecon_s16; auto. } split. { apply mrecon_s16; auto. }
  split; [cbn; lia|].
  cbn [bytes_ok forallb]. fold (bytes_ok bytes).
  rewrite B2, Bd0, Bd1, Be0, Be1, Ba0, Ba1, Bb0, Bb1, Bf0, Bf1, Bg0, Bg1. unfold byte_ok. lia.
Qed.

Lemma choosePredictor_best coefs x0 x1 x2 x3 x4 st : s16ok x0 -> s16ok x1 -> s16ok x2 -> s16ok x3 -> s16ok x4 ->
  Forall coefOk coefs -> coefs <> [] -> zlen coefs <= 256 ->
  exists st' c e, choosePredictor coefs x0 x1 x2 x3 x4 st = Ok st' /\ aget coefs (predictorIndex st') = Ok c /\
    predictorError x0 x1 x2 x3 x4 c = Ok e /\ delta st' = Z.max 16 e /\
    forall c', In c' coefs -> exists e', predictorError x0 x1 x2 x3 x4 c' = Ok e' /\ e <= e'.
Proof.
  intros H0 H1 H2 H3 H4 Hc Hne Hlen. unfold choosePredictor.
  destruct (choose_ok x0 x1 x2 x3 x4 coefs H0 H1 H2 H3 H4 Hc 0 0 2147483647 ltac:(lia)) as (i & e & E & B & M & D).
  rewrite E. cbn [rbind].
  destruct coefs as [|c0 coefs']; [congruence|]. set (coefs := c0 :: coefs') in *.
  assert (He : e <= 32768).
  { destruct (M c0 (or_introl eq_refl)) as (e' & E' & L').
    inversion Hc; subst. destruct (predictorError_ok x0 x1 x2 x3 x4 c0) as (e'' & E'' & B''); auto.
    rewrite E'' in E'. inversion E'; subst. lia. }
  destruct D as [[_ ->]|[Hi (c & Hn & Hp)]]; [lia|].
  rewrite Z.sub_0_r in Hn.
  exists (mkMs (u8 i) (if e <? 16 then 16 else e) (sample1 st) (sample2 st)), c, e. split; [reflexivity|].
  cbn [predictorIndex delta]. replace (u8 i) with i by (unfold u8, uN; zpow; lia). split.
  { unfold aget. destruct (Z.ltb_spec i 0); [lia|]. now rewrite Hn. }
  split; [exact Hp|]. split; [destruct (Z.ltb_spec e 16); lia|]. exact M.
Qed.

Lemma reconstruction_error st x c p : 16 <= delta st <= 65535 -> predict st c = Ok p -> -98304 <= p <= 98304 -> s16ok x ->
  -7 * delta st <= x - p <= 7 * delta st ->
  exists code st', encodeSample st x c = Ok (code, st') /\ 2 * Z.abs (sample1 st' - x) <= delta st.
Proof.
  intros Hd Hp Bp Hx Hr. unfold encodeSample. rewrite Hp. cbn [rbind]. unfold s16ok in Hx. set (d := delta st) in *. clearbody d.
  rewrite (ck32_ok (x - p)) by (zpow; lia). cbn [rbind].
  rewrite Z.quot_div_nonneg by lia. set (b := d / 2). assert (Hb : 2 * b <= d < 2 * b + 2) by (unfold b; lia). clearbody b.
  set (bias := if x - p <? 0 then - b else b).
  assert (Hbias : (x - p < 0 /\ bias = - b) \/ (0 <= x - p /\ bias = b)) by (unfold bias; destruct (Z.ltb_spec (x - p) 0); lia).
  clearbody bias. rewrite (ck32_ok (x - p + bias)) by (zpow; lia). cbn [rbind]. replace (d =? 0) with false by lia.
  destruct (quot_facts (x - p + bias) d ltac:(lia)) as [Q1 Q2].
  set (q := Z.quot (x - p + bias) d) in *. clearbody q.
  assert (Hq : -7 <= q <= 7 /\ 2 * Z.abs (d * q - (x - p)) <= d).
  { destruct Hbias as [[Hn Eb]|[Hn Eb]]; [specialize (Q2 ltac:(lia))|specialize (Q1 ltac:(lia))]; split; try nia. }
  clear Q1 Q2 Hbias. destruct Hq as [Hq He].
  assert (C : clampZ q (-8) 7 = q) by (unfold clampZ; rewrite Z.gtb_ltb; destruct (Z.ltb_spec q (-8)); [lia|]; destruct (Z.ltb_spec 7 q); lia).
  rewrite C. clear C.
  assert (S : signedCode (Z.land q 15) = q /\ exists a, aget adaptationTable (Z.land q 15) = Ok a /\ 0 <= a <= 768).
  { assert (C : q = -7 \/ q = -6 \/ q = -5 \/ q = -4 \/ q = -3 \/ q = -2 \/ q = -1 \/ q = 0 \/ q = 1 \/ q = 2 \/
     q = 3 \/ q = 4 \/ q = 5 \/ q = 6 \/ q = 7) by lia. clear - C.
    repeat match type of C with _ \/ _ => destruct C as [C|C] end; subst q; (split; [reflexivity|]); (eexists; split; [reflexivity|]); lia. }
  destruct S as (-> & a & -> & Ha). rewrite (ck32_ok (q * d)) by (zpow; nia). cbn [rbind].
  rewrite (ck32_ok (p + q * d)) by (zpow; nia). cbn [rbind]. rewrite (ck32_ok (a * d)) by (zpow; nia). cbn [rbind].
  eexists _, _. split; [reflexivity|]. cbn [sample1]. rewrite s16_clamp.
  replace (q * d) with (d * q) by lia. set (r := d * q) in *. clearbody r. unfold clampZ. rewrite Z.gtb_ltb.
  destruct (Z.ltb_spec (p + r) (-32768)); [lia|]. destruct (Z.ltb_spec 32767 (p + r)); lia.
Qed.

Lemma adapt_bound code : 0 <= code < 16 -> exists a, aget adaptationTable code = Ok a /\ 230 <= a <= 768.
Proof.
  intros H. assert (C : code = 0 \/ code = 1 \/ code = 2 \/ code = 3 \/ code = 4 \/ code = 5 \/ code = 6 \/ code = 7 \/
    code = 8 \/ code = 9 \/ code = 10 \/ code = 11 \/ code = 12 \/ code = 13 \/ code = 14 \/ code = 15) by lia. clear H.
  repeat match type of C with _ \/ _ => destruct C as [C|C] end; subst code; (eexists; split; [reflexivity|]); lia.
Qed.

Lemma signedCode_range code : 0 <= code < 16 -> -8 <= signedCode code <= 7.
Proof.
  intros H. assert (C : code = 0 \/ code = 1 \/ code = 2 \/ code = 3 \/ code = 4 \/ code = 5 \/ code = 6 \/ code = 7 \/
    code = 8 \/ code = 9 \/ code = 10 \/ code = 11 \/ code = 12 \/ code = 13 \/ code = 14 \/ code = 15) by lia. clear H.
  repeat match type of C with _ \/ _ => destruct C as [C|C] end; subst code; cbn; lia.
Qed.

Lemma decode_defined st code c : 0 <= code < 16 -> coefOk c -> 0 <= delta st <= 2796202 ->
  s16ok (sample1 st) -> s16ok (sample2 st) ->
  exists st', decodeSample st code c = Ok (sample1 st', st') /\ s16ok (sample1 st') /\ sample2 st' = sample1 st /\
    16 <= delta st' <= Z.max 16 (3 * delta st).
Proof.
  intros Hk Hc Hd H1 H2. unfold decodeSample.
  destruct (predict_ok st c H1 H2 Hc) as (p & -> & Hp). cbn [rbind].
  pose proof (signedCode_range code Hk) as Hs. destruct (adapt_bound code Hk) as (a & -> & Ha). set (k := signedCode code) in *. clearbody k.
  set (d := delta st) in *. clearbody d.
  assert (Z.abs (k * d) <= 8 * 2796202) by (rewrite Z.abs_mul; nia).
  rewrite (ck32_ok (k * d)) by (zpow; lia). cbn [rbind]. rewrite (ck32_ok (p + k * d)) by (zpow; lia). cbn [rbind].
  assert (0 <= d * a <= 768 * d) by nia.
  rewrite (ck32_ok (d * a)) by (zpow; lia). cbn [rbind]. eexists (mkMs _ _ (s16 (clampZ (p + k * d) (-32768) 32767)) _). cbn [sample1 sample2 delta]. split; [reflexivity|].
  split. { rewrite s16_clamp. apply clampZ_range. lia. } split; [reflexivity|].
  rewrite Z.shiftr_div_pow2 by lia. zpow. destruct (Z.ltb_spec (d * a / 256) 16); lia.
Qed.

Lemma decodeCodes_defined c : coefOk c -> forall codes st, Forall (fun k => 0 <= k < 16) codes -> s16ok (sample1 st) -> s16ok (sample2 st) ->
    0 <= delta st -> Z.max 16 (delta st) * 3 ^ zlen codes <= 3 * 2796202 ->
    exists l st', decodeCodes c st codes = Ok (l, st') /\ length l = length codes /\ Forall s16ok l.
Proof.
  intros Hc. induction codes as [|k codes IH]; intros st Hk H1 H2 Hd Hb.
  - exists [], st. auto.
  - rewrite zlen_cons in Hb. pose proof (zlen_nonneg codes) as Hz. rewrite Z.add_comm, Z.pow_add_r in Hb by lia.
    change (3 ^ 1) with 3 in Hb.
    assert (P : 1 <= 3 ^ zlen codes) by (pose proof (Z.pow_pos_nonneg 3 (zlen codes)); lia).
    inversion Hk; subst.
    destruct (decode_defined st k c) as (st' & E & S1 & S2 & D); auto. { split; [lia|]. nia. }
    destruct (IH st') as (l & st'' & E' & L & F); auto; try lia. { rewrite S2; auto. } { nia. }
    exists (sample1 st' :: l), st''. cbn [decodeCodes]. rewrite E. cbn [rbind]. rewrite E'. cbn [rbind length]. auto.
Qed.
