(** * C53: AIFF and AIFF-C files after a crash, opened again *)
From Verif Require Import Prelude PreludeFacts ByteOrder G711 FileIO Reader ReaderSpec PropertiesReader.
From Verif Require Import Writer WriterSpec WriterProofs WriterHistory Codecs CodecsProofs PropertiesWriter PropertiesRoundTrip HeaderIO FileRoundTrip Chunks Float Extended PropertiesExtended AIFF PropertiesAIFF PropertiesCrash.

Theorem C53_aiff_pcm_after_crash :
  forall (B : Build) host aifc s m e fm sgn n, let rate := S754_finite s m e in validD rate = true -> aiffPCM host rate aifc fm sgn n ->
  forall x0 (xs : wtrack -> aextra), validExtra x0 -> (forall t, validExtra (xs t) /\ sameLayout x0 (xs t)) ->
  forall (V W : Type) (conv : V -> list Z) (back : list Z -> W) junk cap (ops : list wop) (ws : list (list V)),
    let ch := f_chan fm in let bpf := Z.of_nat n * ch in let first := aiffFirst aifc fm x0 in
    let total := zlen (written ops) in
    zlen junk = ch -> spaced false (ops ++ [Sync]) -> Forall (fun v => zlen (conv v) = ch) (concat ws) ->
    Forall (fun v => frameOf ch (fits sgn n) (conv v)) (written ops) ->
    first + bpf * total < 2 ^ 31 ->
    exists st, wrun (pcmW BigEndian n ch) conv junk true (fun f t => aiffUpdate aifc fm (xs t) f t) (openWrite (pcmW BigEndian n ch) (aiffInit aifc fm x0) first cap tt) (ops ++ [Sync]) = Ok st /\
      forall X, crashImage B (pcmW BigEndian n ch) conv junk (fun f t => aiffUpdate aifc fm (xs t) f t) st ws X ->
      aiffReopens B aifc host X (pcmR BigEndian sgn n ch) back fm (xs (ws_track st)) first (bpf * total) total (map (fun v => back (conv v)) (written ops)).
Proof.
  intros B host aifc s m e fm sgn n rate Hr Hp x0 xs V0 Vx V W conv back junk cap ops ws ch bpf first total Hj Hsp Hws Hok Hs.
  apply rateOK_finite in Hr. destruct (aiffPCM_fmt _ _ _ _ _ _ Hp) as (Hf & Hn & Hc). change (2 ^ 31) with 2147483648 in Hs. fold ch in Hc.
  assert (Pb : 0 < bpf) by (unfold bpf; apply Z.mul_pos_pos; lia). pose proof (zlen_nonneg (written ops) : 0 <= total) as Zt.
  assert (H0 : 0 <= first) by (unfold first, aiffFirst; pose proof (zlen_nonneg (aiffBody aifc fm x0 0 0)); lia).
  assert (Hm : total <= bpf * total) by nia.
  destruct (pcm_crash (W := W) B BigEndian sgn n ch Hn Hc conv back junk (fun f t => aiffUpdate aifc fm (xs t) f t) (aiffInit aifc fm x0) first cap ops ws Hj H0
      (updKeeps_for _ _ _ _ (aiff_keeps host rate aifc fm x0 xs Hf V0 Vx)) _ (aiff_front host rate aifc fm x0 xs (first + bpf * total) bpf Hf V0 Vx ltac:(fold first; lia)) Hsp Hok Hs Hws)
      as (st & f0 & R & Ef & HF & T0 & T1 & T2 & T3 & Fit & RX).
  exists st. split; [exact R|]. intros X HX. fold ch bpf in T2, T3, Fit. fold total in T1, T2, T3, Fit.
  assert (L0 : first <= zlen (fbytes (ws_file st))).
  { rewrite Ef. apply (aiff_updated_len host rate aifc fm x0 xs _ f0 (ws_track st) Hf V0 Vx HF). }
  destruct (RX X HX (or_intror L0)) as (EX & LX & F1 & RD). fold ch bpf total in EX, F1, RD.
  assert (Ec : counted fm total = total /\ foundTotal fm total = total) by (destruct Hp; subst fm; auto). destruct Ec as [Ec1 Ec2]. rewrite <- Ec2 at 2.
  apply (aiff_conclude_front B host rate aifc fm x0 xs _ back (bpf * total) total _ f0 (ws_file st) (ws_track st) X); auto; try rewrite Ec1; try rewrite Ec2; auto; try (change (2 ^ 32) with 4294967296; change (2 ^ 63) with 9223372036854775808; fold first; lia).
Qed.
Print Assumptions C53_aiff_pcm_after_crash.

Theorem C53_aifc_g711_after_crash :
  forall (B : Build) host s m e ch, let rate := S754_finite s m e in validD rate = true -> 0 < ch < 2 ^ 16 ->
  let fm c := mkFmt rate TwosComp 16 ch host c 1 ch in
  forall x0 (xs : wtrack -> aextra), validExtra x0 -> (forall t, validExtra (xs t) /\ sameLayout x0 (xs t)) ->
  forall (V W : Type) (conv : V -> list Z) (back : list Z -> W) junk cap (ops : list wop) (ws : list (list V)),
    let first c := aiffFirst true (fm c) x0 in let total := zlen (written ops) in
    zlen junk = ch -> spaced false (ops ++ [Sync]) -> Forall (fun v => zlen (conv v) = ch) (concat ws) -> Forall (fun v => zlen (conv v) = ch) (written ops) ->
    first CUlaw + ch * total <= 2 ^ 32 - 24 ->
    (exists st, wrun (ulawW ch) conv junk true (fun f t => aiffUpdate true (fm CUlaw) (xs t) f t) (openWrite (ulawW ch) (aiffInit true (fm CUlaw) x0) (first CUlaw) cap tt) (ops ++ [Sync]) = Ok st /\
      forall X, crashImage B (ulawW ch) conv junk (fun f t => aiffUpdate true (fm CUlaw) (xs t) f t) st ws X ->
      aiffReopens B true host X (ulawR ch) back (fm CUlaw) (xs (ws_track st)) (first CUlaw) (ch * total) total
        (map (fun v => back (map (fun x => ulaw2linear (linear2ulaw x)) (conv v))) (written ops))) /\
    (exists st, wrun (alawW ch) conv junk true (fun f t => aiffUpdate true (fm CAlaw) (xs t) f t) (openWrite (alawW ch) (aiffInit true (fm CAlaw) x0) (first CAlaw) cap tt) (ops ++ [Sync]) = Ok st /\
      forall X, crashImage B (alawW ch) conv junk (fun f t => aiffUpdate true (fm CAlaw) (xs t) f t) st ws X ->
      aiffReopens B true host X (alawR ch) back (fm CAlaw) (xs (ws_track st)) (first CAlaw) (ch * total) total
        (map (fun v => back (map (fun x => alaw2linear (linear2alaw x)) (conv v))) (written ops))).
Proof.
  intros B host s m e ch rate Hr Hc fm x0 xs V0 Vx V W conv back junk cap ops ws first total Hj Hsp Hws Hok Hs.
  apply rateOK_finite in Hr. assert (Hc0 : 0 < ch) by lia. pose proof (zlen_nonneg (written ops) : 0 <= total) as Zt.
  assert (FU : aiffFmt host rate true (fm CUlaw)) by (constructor; exact Hc).
  assert (FA : aiffFmt host rate true (fm CAlaw)) by (constructor; exact Hc).
  assert (E1 : first CAlaw = first CUlaw).
  { unfold first, aiffFirst, aiffBody. rewrite !zlen_app. do 2 f_equal. f_equal. unfold commBytes. cbn [commName f_comp fm]. rewrite !zlen_app. reflexivity. }
  change (2 ^ 32) with 4294967296 in *. assert (Hm : total <= ch * total) by nia.
  assert (H0 : 0 <= first CUlaw) by (unfold first, aiffFirst; pose proof (zlen_nonneg (aiffBody true (fm CUlaw) x0 0 0)); lia).
  split.
  - destruct (ulaw_crash (W := W) B ch Hc0 conv back junk (fun f t => aiffUpdate true (fm CUlaw) (xs t) f t) (aiffInit true (fm CUlaw) x0) (first CUlaw) cap ops ws Hj H0
      (updKeeps_for _ _ _ _ (aiff_keeps host rate true (fm CUlaw) x0 xs FU V0 Vx)) _ (aiff_front host rate true (fm CUlaw) x0 xs (first CUlaw + ch * total) ch FU V0 Vx ltac:(fold (first CUlaw); nia)) Hsp Hok Hws)
      as (st & f0 & R & Ef & HF & T0 & T1 & T2 & T3 & Fit & RX).
    exists st. split; [exact R|]. intros X HX. fold total in T1, T2, T3, Fit.
    assert (L0 : first CUlaw <= zlen (fbytes (ws_file st))) by (rewrite Ef; apply (aiff_updated_len host rate true (fm CUlaw) x0 xs _ f0 (ws_track st) FU V0 Vx HF)).
    destruct (RX X HX (or_intror L0)) as (EX & LX & F1 & RD). fold total in EX, F1, RD.
    apply (aiff_conclude_front B host rate true (fm CUlaw) x0 xs _ back (ch * total) total _ f0 (ws_file st) (ws_track st) X); auto; try (unfold counted; cbn [fm f_comp]; change (2 ^ 32) with 4294967296; change (2 ^ 63) with 9223372036854775808; fold (first CUlaw); lia).
  - rewrite <- E1 in *. destruct (alaw_crash (W := W) B ch Hc0 conv back junk (fun f t => aiffUpdate true (fm CAlaw) (xs t) f t) (aiffInit true (fm CAlaw) x0) (first CAlaw) cap ops ws Hj H0
      (updKeeps_for _ _ _ _ (aiff_keeps host rate true (fm CAlaw) x0 xs FA V0 Vx)) _ (aiff_front host rate true (fm CAlaw) x0 xs (first CAlaw + ch * total) ch FA V0 Vx ltac:(fold (first CAlaw); nia)) Hsp Hok Hws)
      as (st & f0 & R & Ef & HF & T0 & T1 & T2 & T3 & Fit & RX).
    exists st. split; [exact R|]. intros X HX. fold total in T1, T2, T3, Fit.
    assert (L0 : first CAlaw <= zlen (fbytes (ws_file st))) by (rewrite Ef; apply (aiff_updated_len host rate true (fm CAlaw) x0 xs _ f0 (ws_track st) FA V0 Vx HF)).
    destruct (RX X HX (or_intror L0)) as (EX & LX & F1 & RD). fold total in EX, F1, RD.
    apply (aiff_conclude_front B host rate true (fm CAlaw) x0 xs _ back (ch * total) total _ f0 (ws_file st) (ws_track st) X); auto; try (unfold counted; cbn [fm f_comp]; change (2 ^ 32) with 4294967296; change (2 ^ 63) with 9223372036854775808; fold (first CAlaw); lia).
Qed.
Print Assumptions C53_aifc_g711_after_crash.

