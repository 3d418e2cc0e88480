(** * C53: WAVE files after a crash, opened again *)
From Verif Require Import Prelude PreludeFacts ByteOrder G711 FileIO Reader ReaderSpec PropertiesReader.
From Verif Require Import Writer WriterSpec WriterProofs WriterHistory Codecs CodecsProofs PropertiesWriter PropertiesRoundTrip HeaderIO FileRoundTrip Chunks VOC WAVE PropertiesWAVE PropertiesCrash.

Theorem C53_wave_pcm_after_crash :
  forall (B : Build) host fm sgn n, wavePCM fm sgn n ->
  forall x0 (xs : wtrack -> wextra), validExtra x0 -> (forall t, validExtra (xs t) /\ sameLayout x0 (xs t)) ->
  exists fb, fmtBytes fm = Ok fb /\
  forall (V W : Type) (conv : V -> list Z) (back : list Z -> W) junk cap (ops : list wop) (ws : list (list V)),
    let ch := f_chan fm in let bpf := Z.of_nat n * ch in let first := waveFirst fb fm x0 in
    let total := zlen (written ops) in
    zlen junk = ch -> spaced false (ops ++ [Sync]) -> Forall (fun v => zlen (conv v) = ch) (concat ws) ->
    Forall (fun v => frameOf ch (fits sgn n) (conv v)) (written ops) ->
    first + bpf * total < 2 ^ 31 ->
    exists st, wrun (pcmW LittleEndian n ch) conv junk true (fun f t => waveUpdate fb fm x0 (xs t) f t) (openWrite (pcmW LittleEndian n ch) (waveInit fb fm x0) first cap tt) (ops ++ [Sync]) = Ok st /\
      forall X, crashImage B (pcmW LittleEndian n ch) conv junk (fun f t => waveUpdate fb fm x0 (xs t) f t) st ws X ->
      waveReopens B host X (pcmR LittleEndian sgn n ch) back fm (xs (ws_track st)) first (bpf * total) total (map (fun v => back (conv v)) (written ops)).
Proof.
  intros B host fm sgn n Hp x0 xs V0 Vx. destruct (wavePCM_fmt host _ _ _ Hp) as (Hf & Hn & Hc & Eb). destruct (wave_fmt host fm Hf) as (cs & content & Efb & _).
  exists (T_fmt ++ le4 cs ++ content). split; [exact Efb|]. set (fb := T_fmt ++ le4 cs ++ content) in *. clearbody fb.
  intros V W conv back junk cap ops ws ch bpf first total Hj Hsp Hws Hok Hs. change (2 ^ 31) with 2147483648 in Hs. fold ch in Hc, Eb.
  assert (Pb : 0 < bpf) by (unfold bpf; apply Z.mul_pos_pos; lia). pose proof (zlen_nonneg (written ops) : 0 <= total) as Zt.
  assert (H0 : 0 <= first) by (unfold first, waveFirst; pose proof (zlen_nonneg (waveBody fb fm x0 0 0)); lia).
  assert (Hm : total <= bpf * total) by nia.
  destruct (pcm_crash (W := W) B LittleEndian sgn n ch Hn Hc conv back junk (fun f t => waveUpdate fb fm x0 (xs t) f t) (waveInit fb fm x0) first cap ops ws Hj H0
      (updKeeps_for _ _ _ _ (wave_keeps fb fm x0 xs V0 Vx)) _ (wave_front fb fm x0 xs (first + bpf * total) bpf V0 Vx ltac:(fold first; lia)) Hsp Hok Hs Hws)
      as (st & f0 & R & Ef & HF & T0 & T1 & T2 & T3 & Fit & RX).
  exists st. split; [exact R|]. intros X HX. fold ch bpf in T2, T3, Fit. fold total in T1, T2, T3, Fit.
  assert (L0 : first <= zlen (fbytes (ws_file st))) by (rewrite Ef; exact (wave_updated_len fb fm x0 xs _ f0 (ws_track st) V0 Vx HF)).
  destruct (RX X HX (or_intror L0)) as (EX & LX & F1 & RD). fold ch bpf total in EX, F1, RD.
  apply (wave_conclude_front B host fm fb x0 xs _ back (bpf * total) total _ f0 (ws_file st) (ws_track st) X); auto; try (change (2 ^ 32) with 4294967296; fold first; lia).
Qed.
Print Assumptions C53_wave_pcm_after_crash.

Theorem C53_wave_g711_after_crash :
  forall (B : Build) host rate ch, 0 < ch < 2 ^ 16 -> 0 <= rate -> rate * ch < 2 ^ 32 ->
  forall x0 (xs : wtrack -> wextra), validExtra x0 -> (forall t, validExtra (xs t) /\ sameLayout x0 (xs t)) ->
  (let fm := mkFmt rate TwosComp 16 ch host CUlaw 1 ch in
   exists fb, fmtBytes fm = Ok fb /\
   forall (V W : Type) (conv : V -> list Z) (back : list Z -> W) junk cap (ops : list wop) (ws : list (list V)),
    let first := waveFirst fb fm x0 in let total := zlen (written ops) in
    zlen junk = ch -> spaced false (ops ++ [Sync]) -> Forall (fun v => zlen (conv v) = ch) (concat ws) -> Forall (fun v => zlen (conv v) = ch) (written ops) -> first + ch * total <= 2 ^ 32 - 24 ->
    exists st, wrun (ulawW ch) conv junk true (fun f t => waveUpdate fb fm x0 (xs t) f t) (openWrite (ulawW ch) (waveInit fb fm x0) first cap tt) (ops ++ [Sync]) = Ok st /\
      forall X, crashImage B (ulawW ch) conv junk (fun f t => waveUpdate fb fm x0 (xs t) f t) st ws X ->
      waveReopens B host X (ulawR ch) back fm (xs (ws_track st)) first (ch * total) total
        (map (fun v => back (map (fun x => ulaw2linear (linear2ulaw x)) (conv v))) (written ops))) /\
  (let fm := mkFmt rate TwosComp 16 ch host CAlaw 1 ch in
   exists fb, fmtBytes fm = Ok fb /\
   forall (V W : Type) (conv : V -> list Z) (back : list Z -> W) junk cap (ops : list wop) (ws : list (list V)),
    let first := waveFirst fb fm x0 in let total := zlen (written ops) in
    zlen junk = ch -> spaced false (ops ++ [Sync]) -> Forall (fun v => zlen (conv v) = ch) (concat ws) -> Forall (fun v => zlen (conv v) = ch) (written ops) -> first + ch * total <= 2 ^ 32 - 24 ->
    exists st, wrun (alawW ch) conv junk true (fun f t => waveUpdate fb fm x0 (xs t) f t) (openWrite (alawW ch) (waveInit fb fm x0) first cap tt) (ops ++ [Sync]) = Ok st /\
      forall X, crashImage B (alawW ch) conv junk (fun f t => waveUpdate fb fm x0 (xs t) f t) st ws X ->
      waveReopens B host X (alawR ch) back fm (xs (ws_track st)) first (ch * total) total
        (map (fun v => back (map (fun x => alaw2linear (linear2alaw x)) (conv v))) (written ops))).
Proof.
  intros B host rate ch Hc Hr Hrc x0 xs V0 Vx. assert (Hc0 : 0 < ch) by lia. split; intros fm.
  - assert (Hf : waveFmt host fm) by (apply (WF_g711 host _ CUlaw ch rate); auto). destruct (wave_fmt host fm Hf) as (cs & content & Efb & _).
    exists (T_fmt ++ le4 cs ++ content). split; [exact Efb|]. set (fb := T_fmt ++ le4 cs ++ content) in *. clearbody fb.
    intros V W conv back junk cap ops ws first total Hj Hsp Hws Hok Hs. pose proof (zlen_nonneg (written ops) : 0 <= total) as Zt. change (2 ^ 32) with 4294967296 in *.
    assert (H0 : 0 <= first) by (unfold first, waveFirst; pose proof (zlen_nonneg (waveBody fb fm x0 0 0)); lia). assert (Hm : total <= ch * total) by nia.
    destruct (ulaw_crash (W := W) B ch Hc0 conv back junk (fun f t => waveUpdate fb fm x0 (xs t) f t) (waveInit fb fm x0) first cap ops ws Hj H0
      (updKeeps_for _ _ _ _ (wave_keeps fb fm x0 xs V0 Vx)) _ (wave_front fb fm x0 xs (first + ch * total) ch V0 Vx ltac:(fold first; lia)) Hsp Hok Hws)
      as (st & f0 & R & Ef & HF & T0 & T1 & T2 & T3 & Fit & RX).
    exists st. split; [exact R|]. intros X HX. fold total in T1, T2, T3, Fit.
    assert (L0 : first <= zlen (fbytes (ws_file st))) by (rewrite Ef; exact (wave_updated_len fb fm x0 xs _ f0 (ws_track st) V0 Vx HF)).
    destruct (RX X HX (or_intror L0)) as (EX & LX & F1 & RD). fold total in EX, F1, RD.
    apply (wave_conclude_front B host fm fb x0 xs _ back (ch * total) total _ f0 (ws_file st) (ws_track st) X); auto; try (change (2 ^ 32) with 4294967296; fold first; lia).
  - assert (Hf : waveFmt host fm) by (apply (WF_g711 host _ CAlaw ch rate); auto). destruct (wave_fmt host fm Hf) as (cs & content & Efb & _).
    exists (T_fmt ++ le4 cs ++ content). split; [exact Efb|]. set (fb := T_fmt ++ le4 cs ++ content) in *. clearbody fb.
    intros V W conv back junk cap ops ws first total Hj Hsp Hws Hok Hs. pose proof (zlen_nonneg (written ops) : 0 <= total) as Zt. change (2 ^ 32) with 4294967296 in *.
    assert (H0 : 0 <= first) by (unfold first, waveFirst; pose proof (zlen_nonneg (waveBody fb fm x0 0 0)); lia). assert (Hm : total <= ch * total) by nia.
    destruct (alaw_crash (W := W) B ch Hc0 conv back junk (fun f t => waveUpdate fb fm x0 (xs t) f t) (waveInit fb fm x0) first cap ops ws Hj H0
      (updKeeps_for _ _ _ _ (wave_keeps fb fm x0 xs V0 Vx)) _ (wave_front fb fm x0 xs (first + ch * total) ch V0 Vx ltac:(fold first; lia)) Hsp Hok Hws)
      as (st & f0 & R & Ef & HF & T0 & T1 & T2 & T3 & Fit & RX).
    exists st. split; [exact R|]. intros X HX. fold total in T1, T2, T3, Fit.
    assert (L0 : first <= zlen (fbytes (ws_file st))) by (rewrite Ef; exact (wave_updated_len fb fm x0 xs _ f0 (ws_track st) V0 Vx HF)).
    destruct (RX X HX (or_intror L0)) as (EX & LX & F1 & RD). fold total in EX, F1, RD.
    apply (wave_conclude_front B host fm fb x0 xs _ back (ch * total) total _ f0 (ws_file st) (ws_track st) X); auto; try (change (2 ^ 32) with 4294967296; fold first; lia).
Qed.
Print Assumptions C53_wave_g711_after_crash.

