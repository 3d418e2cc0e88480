(** * C53: NeXT, AVR, NIST and 8SVX files after a crash, opened again *)
From Verif Require Import Prelude PreludeFacts ByteOrder G711 FileIO Reader ReaderSpec PropertiesReader.
From Verif Require Import Writer WriterSpec WriterProofs WriterHistory Codecs CodecsProofs PropertiesWriter PropertiesRoundTrip HeaderIO FileRoundTrip Chunks NeXT AVR NIST AIFF IFF PropertiesNeXT PropertiesAVR PropertiesNIST PropertiesIFF PropertiesCrash.

Theorem C53_next_pcm_after_crash :
  forall (B : Build) host sf n ch rate, nextPCM sf n -> 0 < ch -> 0 <= rate < 2 ^ 32 ->
  forall (V W : Type) (conv : V -> list Z) (back : list Z -> W) junk cap (ops : list wop) (ws : list (list V)),
    let sgn := match sf with TwosComp => true | _ => false end in
    let bpf := Z.of_nat n * ch in
    let fm := mkFmt rate sf (8 * Z.of_nat n) ch BigEndian CNone 1 bpf in
    zlen junk = ch -> spaced false (ops ++ [Sync]) -> Forall (fun v => zlen (conv v) = ch) (concat ws) ->
    Forall (fun v => frameOf ch (fits sgn n) (conv v)) (written ops) ->
    28 + bpf * zlen (written ops) < 2 ^ 31 -> written ops <> [] ->
    exists st, wrun (pcmW BigEndian n ch) conv junk true (nextUpdate fm) (openWrite (pcmW BigEndian n ch) (nextInit fm) nextFirst cap tt) (ops ++ [Sync]) = Ok st /\
      forall X, crashImage B (pcmW BigEndian n ch) conv junk (nextUpdate fm) st ws X ->
      reopens B (nextRead host) X (pcmR BigEndian sgn n ch) back fm 28 (zlen (written ops)) (map (fun v => back (conv v)) (written ops)).
Proof.
  intros B host sf n ch rate Hsf Hc Hr V W conv back junk cap ops ws sgn bpf fm Hj Hsp Hws Hok Hs Hne.
  assert (Hn : (1 <= n <= 8)%nat) by (destruct Hsf; lia).
  assert (Hw : 0 < zlen (written ops)) by (destruct (written ops); [congruence|rewrite zlen_cons; pose proof (zlen_nonneg l); lia]).
  change (2 ^ 31) with 2147483648 in Hs.
  destruct (pcm_crash (W := W) B BigEndian sgn n ch ltac:(lia) Hc conv back junk (nextUpdate fm) (nextInit fm) nextFirst cap ops ws Hj ltac:(unfold nextFirst; lia)
      (updKeeps_for _ _ _ _ (next_keeps fm)) _ (frontOK_True _ _ _ _ _) Hsp Hok ltac:(unfold nextFirst; exact Hs) Hws) as (st & f0 & R & Ef & _ & T0 & T1 & T2 & T3 & Fit & RX).
  exists st. split; [exact R|]. intros X HX. specialize (Fit Hne). specialize (RX X HX (or_introl Hne)). destruct RX as (EX & LX & _ & RD). fold bpf in T2, T3, Fit, RD, EX. set (total := zlen (written ops)) in *.
  assert (Pb : 0 < bpf) by (unfold bpf; nia).
  destruct (ow_head (fbytes f0) (nextHeader fm (w_first (ws_track st)) (w_dsize (ws_track st)))) as (rest & Eo).
  assert (Eb : fbytes (ws_file st) = nextHeader fm nextFirst (bpf * total) ++ rest).
  { rewrite Ef at 1. unfold nextUpdate, fwrite, fseek. cbn [fbytes fpos]. rewrite Eo, T0, T2. reflexivity. }
  assert (Lh : zlen (nextHeader fm nextFirst (bpf * total)) = 24) by (unfold nextHeader; rewrite !zlen_app, !sampleBytes_zlen; reflexivity).
  pose proof (fun H1 H2 => same_front _ _ EX H1 Eb H2) as Ex. specialize (Ex ltac:(lia) ltac:(rewrite ?Lh, ?L1; unfold nextFirst; nia)).
  destruct (next_read_header host fm (bpf * total) X _ Ex) as (f' & RH).
  - lia.
  - change (2 ^ 32) with 4294967296. nia.
  - change (2 ^ 32) with 4294967296. nia.
  - exact Hr.
  - cbn [fm f_chan]. change (2 ^ 31) with 2147483648. unfold bpf in *. nia.
  - cbn [fm f_comp f_order f_fpp f_bpp f_width f_chan f_sf]. split; [reflexivity|]. split; [reflexivity|].
    split; [replace (8 * Z.of_nat n / 8) with (Z.of_nat n) by lia; reflexivity|]. split; [change (2 ^ 31) with 2147483648; unfold bpf in *; nia|].
    destruct Hsf as [n Hn'| |]; [left|right; left; auto|right; right; auto]. split; [reflexivity|].
    destruct n as [|[|[|[|[|n]]]]]; try lia; cbn; auto.
  - rewrite computeTotal_exact in RH; [|reflexivity|reflexivity|exact Pb|lia|change (2 ^ 62) with 4611686018427387904; nia].
    exists (bpf * total), f'. split; [exact RH|exact RD].
Qed.
Print Assumptions C53_next_pcm_after_crash.

Theorem C53_next_g711_after_crash :
  forall (B : Build) host ch rate, 0 < ch -> 0 <= rate < 2 ^ 32 ->
  forall (V W : Type) (conv : V -> list Z) (back : list Z -> W) junk cap (ops : list wop) (ws : list (list V)),
    let fm c := mkFmt rate TwosComp 16 ch host c 1 ch in
    zlen junk = ch -> spaced false (ops ++ [Sync]) -> Forall (fun v => zlen (conv v) = ch) (concat ws) -> Forall (fun v => zlen (conv v) = ch) (written ops) ->
    ch * zlen (written ops) < 2 ^ 32 - 1 -> ch < 2 ^ 31 -> written ops <> [] ->
    (exists st, wrun (ulawW ch) conv junk true (nextUpdate (fm CUlaw)) (openWrite (ulawW ch) (nextInit (fm CUlaw)) nextFirst cap tt) (ops ++ [Sync]) = Ok st /\
      forall X, crashImage B (ulawW ch) conv junk (nextUpdate (fm CUlaw)) st ws X ->
      reopens B (nextRead host) X (ulawR ch) back (fm CUlaw) 28 (zlen (written ops))
        (map (fun v => back (map (fun x => ulaw2linear (linear2ulaw x)) (conv v))) (written ops))) /\
    (exists st, wrun (alawW ch) conv junk true (nextUpdate (fm CAlaw)) (openWrite (alawW ch) (nextInit (fm CAlaw)) nextFirst cap tt) (ops ++ [Sync]) = Ok st /\
      forall X, crashImage B (alawW ch) conv junk (nextUpdate (fm CAlaw)) st ws X ->
      reopens B (nextRead host) X (alawR ch) back (fm CAlaw) 28 (zlen (written ops))
        (map (fun v => back (map (fun x => alaw2linear (linear2alaw x)) (conv v))) (written ops))).
Proof.
  intros B host ch rate Hc Hr V W conv back junk cap ops ws fm Hj Hsp Hws Hok Hs Hch Hne.
  assert (Hw : 0 < zlen (written ops)) by (destruct (written ops); [congruence|rewrite zlen_cons; pose proof (zlen_nonneg l); lia]).
  change (2 ^ 32) with 4294967296 in *.
  split.
  - destruct (ulaw_crash (W := W) B ch Hc conv back junk (nextUpdate (fm CUlaw)) (nextInit (fm CUlaw)) nextFirst cap ops ws Hj ltac:(unfold nextFirst; lia)
      (updKeeps_for _ _ _ _ (next_keeps (fm CUlaw))) _ (frontOK_True _ _ _ _ _) Hsp Hok Hws) as (st & f0 & R & Ef & _ & T0 & T1 & T2 & T3 & Fit & RX).
    exists st. split; [exact R|]. intros X HX. specialize (Fit Hne). specialize (RX X HX (or_introl Hne)). destruct RX as (EX & LX & _ & RD). set (total := zlen (written ops)) in *.
    destruct (ow_head (fbytes f0) (nextHeader (fm CUlaw) (w_first (ws_track st)) (w_dsize (ws_track st)))) as (rest & Eo).
    assert (Eb : fbytes (ws_file st) = nextHeader (fm CUlaw) nextFirst (ch * total) ++ rest).
    { rewrite Ef at 1. unfold nextUpdate, fwrite, fseek. cbn [fbytes fpos]. rewrite Eo, T0, T2. reflexivity. }
    assert (Lh : zlen (nextHeader (fm CUlaw) nextFirst (ch * total)) = 24) by (unfold nextHeader; rewrite !zlen_app, !sampleBytes_zlen; reflexivity).
    pose proof (fun H1 H2 => same_front _ _ EX H1 Eb H2) as Ex. specialize (Ex ltac:(lia) ltac:(rewrite ?Lh, ?L1; unfold nextFirst; nia)).
    destruct (next_read_header host (fm CUlaw) (ch * total) X _ Ex) as (f' & RH); auto; try lia; try (change (2 ^ 32) with 4294967296; nia).
    all: try (cbn; repeat split; auto; lia).
    rewrite computeTotal_exact in RH; [|reflexivity|reflexivity|exact Hc|lia|change (2 ^ 62) with 4611686018427387904; nia].
    exists (ch * total), f'. split; [exact RH|exact RD].
  - destruct (alaw_crash (W := W) B ch Hc conv back junk (nextUpdate (fm CAlaw)) (nextInit (fm CAlaw)) nextFirst cap ops ws Hj ltac:(unfold nextFirst; lia)
      (updKeeps_for _ _ _ _ (next_keeps (fm CAlaw))) _ (frontOK_True _ _ _ _ _) Hsp Hok Hws) as (st & f0 & R & Ef & _ & T0 & T1 & T2 & T3 & Fit & RX).
    exists st. split; [exact R|]. intros X HX. specialize (Fit Hne). specialize (RX X HX (or_introl Hne)). destruct RX as (EX & LX & _ & RD). set (total := zlen (written ops)) in *.
    destruct (ow_head (fbytes f0) (nextHeader (fm CAlaw) (w_first (ws_track st)) (w_dsize (ws_track st)))) as (rest & Eo).
    assert (Eb : fbytes (ws_file st) = nextHeader (fm CAlaw) nextFirst (ch * total) ++ rest).
    { rewrite Ef at 1. unfold nextUpdate, fwrite, fseek. cbn [fbytes fpos]. rewrite Eo, T0, T2. reflexivity. }
    assert (Lh : zlen (nextHeader (fm CAlaw) nextFirst (ch * total)) = 24) by (unfold nextHeader; rewrite !zlen_app, !sampleBytes_zlen; reflexivity).
    pose proof (fun H1 H2 => same_front _ _ EX H1 Eb H2) as Ex. specialize (Ex ltac:(lia) ltac:(rewrite ?Lh, ?L1; unfold nextFirst; nia)).
    destruct (next_read_header host (fm CAlaw) (ch * total) X _ Ex) as (f' & RH); auto; try lia; try (change (2 ^ 32) with 4294967296; nia).
    all: try (cbn; repeat split; auto; lia).
    rewrite computeTotal_exact in RH; [|reflexivity|reflexivity|exact Hc|lia|change (2 ^ 62) with 4611686018427387904; nia].
    exists (ch * total), f'. split; [exact RH|exact RD].
Qed.
Print Assumptions C53_next_g711_after_crash.

Theorem C53_avr_after_crash :
  forall (B : Build) sf n ch rate name, avrPCM sf n -> ch = 1 \/ ch = 2 -> 0 <= rate < 2 ^ 24 -> zlen name = 8 ->
  forall (V W : Type) (conv : V -> list Z) (back : list Z -> W) junk cap (ops : list wop) (ws : list (list V)),
    let sgn := match sf with TwosComp => true | _ => false end in
    let bpf := Z.of_nat n * ch in
    let fm := mkFmt rate sf (8 * Z.of_nat n) ch BigEndian CNone 1 bpf in
    zlen junk = ch -> spaced false (ops ++ [Sync]) -> Forall (fun v => zlen (conv v) = ch) (concat ws) ->
    Forall (fun v => frameOf ch (fits sgn n) (conv v)) (written ops) ->
    128 + bpf * zlen (written ops) < 2 ^ 31 ->
    exists st, wrun (pcmW BigEndian n ch) conv junk true avrUpdate (openWrite (pcmW BigEndian n ch) (avrInit name fm) avrFirst cap tt) (ops ++ [Sync]) = Ok st /\
      forall X, crashImage B (pcmW BigEndian n ch) conv junk avrUpdate st ws X ->
      reopens B avrRead X (pcmR BigEndian sgn n ch) back fm 128 (zlen (written ops)) (map (fun v => back (conv v)) (written ops)).
Proof.
  intros B sf n ch rate name Hsf Hc Hr Hn V W conv back junk cap ops ws sgn bpf fm Hj Hsp Hws Hok Hs.
  assert (Hn1 : (1 <= n <= 2)%nat) by (destruct Hsf; lia). change (2 ^ 31) with 2147483648 in Hs.
  destruct (pcm_crash (W := W) B BigEndian sgn n ch ltac:(lia) ltac:(lia) conv back junk avrUpdate (avrInit name fm) avrFirst cap ops ws Hj ltac:(unfold avrFirst; lia)
      (updKeeps_for _ _ _ _ avr_keeps) _ (avr_front name fm _ _ Hn) Hsp Hok ltac:(unfold avrFirst; exact Hs) Hws) as (st & f0 & R & Ef & (mid & rest & Lm & E0) & T0 & T1 & T2 & T3 & Fit & RX).
  exists st. split; [exact R|]. intros X HX. set (total := zlen (written ops)) in *. pose proof (zlen_nonneg (written ops) : 0 <= total) as Zt.
  assert (Eb : fbytes (ws_file st) = avrPre name fm ++ avrSizes total ++ avrPost ++ rest).
  { rewrite Ef. unfold avrUpdate, fwrite, fseek. cbn [fbytes fpos]. rewrite E0, <- (avrPre_len name fm Hn), T1. apply ow_mid. rewrite avrSizes_len. exact Lm. }
  assert (L128 : avrFirst <= zlen (fbytes (ws_file st))).
  { rewrite Eb, !zlen_app, (avrPre_len name fm Hn), avrSizes_len, avrPost_len. pose proof (zlen_nonneg rest). unfold avrFirst. lia. }
  destruct (RX X HX (or_intror L128)) as (EX & LX & F1 & RD).
  assert (Lh : zlen (avrPre name fm ++ avrSizes total ++ avrPost) = 128) by (rewrite !zlen_app, (avrPre_len name fm Hn), avrSizes_len, avrPost_len; reflexivity).
  assert (Eb' : fbytes (ws_file st) = (avrPre name fm ++ avrSizes total ++ avrPost) ++ rest) by (rewrite Eb, <- !app_assoc; reflexivity).
  pose proof (fun H1 H2 => same_front _ _ EX H1 Eb' H2) as Ex. specialize (Ex ltac:(lia) ltac:(rewrite ?Lh, ?L1; unfold avrFirst; nia)). rewrite <- !app_assoc in Ex.
  destruct (avr_read_header name fm sf n total X _ Hn Ex Hsf) as (f' & RH); auto.
  { change (2 ^ 32) with 4294967296. unfold bpf in Hs. nia. } { cbn [fm f_rate]. lia. }
  cbn [fm f_rate f_chan] in RH. rewrite Z.mod_small in RH by exact Hr.
  assert (Ec : (if ch =? 1 then 1 else 2) = ch) by (destruct Hc; subst; reflexivity). rewrite Ec in RH.
  eexists _, f'. split; [exact RH|exact RD].
Qed.
Print Assumptions C53_avr_after_crash.

Theorem C53_nist_pcm_after_crash :
  forall (B : Build) (host o : order) w ch rate, 9 <= w <= 16 -> 0 < ch -> 2 * ch < 2 ^ 31 -> 0 < rate < 2 ^ 31 ->
  forall (V W : Type) (conv : V -> list Z) (back : list Z -> W) junk cap (ops : list wop) (ws : list (list V)),
    let fm := mkFmt rate TwosComp w ch o CNone 1 (2 * ch) in
    zlen junk = ch -> spaced false (ops ++ [Sync]) -> Forall (fun v => zlen (conv v) = ch) (concat ws) ->
    Forall (fun v => frameOf ch (fits true 2) (conv v)) (written ops) ->
    1024 + 2 * ch * zlen (written ops) < 2 ^ 31 ->
    exists st, wrun (pcmW o 2 ch) conv junk true (nistUpdate fm) (openWrite (pcmW o 2 ch) (nistInit fm) nistFirst cap tt) (ops ++ [Sync]) = Ok st /\
      forall X, crashImage B (pcmW o 2 ch) conv junk (nistUpdate fm) st ws X ->
      reopens B (nistRead host) X (pcmR o true 2 ch) back fm 1024 (zlen (written ops)) (map (fun v => back (conv v)) (written ops)).
Proof.
  intros B host o w ch rate Hw Hc Hc2 Hr V W conv back junk cap ops ws fm Hj Hsp Hws Hok Hs.
  assert (Hf : nistFmt host rate ch fm) by (apply (NF_pcm host rate ch fm w o eq_refl Hw)).
  destruct (pcm_crash (W := W) B o true 2 ch ltac:(lia) Hc conv back junk (nistUpdate fm) (nistInit fm) nistFirst cap ops ws Hj ltac:(unfold nistFirst; lia)
      (nist_keeps host rate ch fm _ (2 * ch) Hf Hr Hc Hc2 ltac:(lia) Hs) _ (nist_front host rate ch fm _ (2 * ch) Hf Hr Hc Hc2 ltac:(lia) Hs) Hsp Hok ltac:(unfold nistFirst; exact Hs) Hws)
      as (st & f0 & R & Ef & (t0 & rest & Ht0 & E0) & T0 & T1 & T2 & T3 & Fit & RX).
  exists st. split; [exact R|]. intros X HX. set (total := zlen (written ops)) in *. pose proof (zlen_nonneg (written ops) : 0 <= total) as Zt.
  assert (Ht : 0 <= total < 2 ^ 31) by (change (2 ^ 31) with 2147483648 in *; nia).
  destruct (nist_header_shape host rate ch fm total Hf Hr Hc Hc2 Ht) as [L1 _]. destruct (nist_header_shape host rate ch fm t0 Hf Hr Hc Hc2 Ht0) as [L0 _].
  assert (Eb : fbytes (ws_file st) = nistHeader fm total ++ rest).
  { rewrite Ef. unfold nistUpdate, fwrite, fseek. cbn [fbytes fpos]. rewrite E0, T1. apply ow_same. lia. }
  assert (L3 : nistFirst <= zlen (fbytes (ws_file st))) by (rewrite Eb, zlen_app, L1; pose proof (zlen_nonneg rest); unfold nistFirst; lia).
  destruct (RX X HX (or_intror L3)) as (EX & LX & F1 & RD).
  pose proof (fun H1 H2 => same_front _ _ EX H1 Eb H2) as Ex. specialize (Ex ltac:(lia) ltac:(rewrite ?Lh, ?L1; unfold nistFirst; nia)).
  destruct (nist_read host rate ch fm total (zskipn (zlen (nistHeader fm total)) X) Hf Hr Hc Hc2 Ht) as (f' & RH). rewrite <- Ex in RH.
  eexists _, f'. split; [exact RH|exact RD].
Qed.
Print Assumptions C53_nist_pcm_after_crash.

Theorem C53_nist_g711_after_crash :
  forall (B : Build) (host : order) ch rate, 0 < ch -> 2 * ch < 2 ^ 31 -> 0 < rate < 2 ^ 31 ->
  forall (V W : Type) (conv : V -> list Z) (back : list Z -> W) junk cap (ops : list wop) (ws : list (list V)),
    let fm c := mkFmt rate TwosComp 16 ch host c 1 ch in
    zlen junk = ch -> spaced false (ops ++ [Sync]) -> Forall (fun v => zlen (conv v) = ch) (concat ws) ->
    Forall (fun v => zlen (conv v) = ch) (written ops) -> 1024 + ch * zlen (written ops) < 2 ^ 31 ->
    (exists st, wrun (ulawW ch) conv junk true (nistUpdate (fm CUlaw)) (openWrite (ulawW ch) (nistInit (fm CUlaw)) nistFirst cap tt) (ops ++ [Sync]) = Ok st /\
      forall X, crashImage B (ulawW ch) conv junk (nistUpdate (fm CUlaw)) st ws X ->
      reopens B (nistRead host) X (ulawR ch) back (fm CUlaw) 1024 (zlen (written ops)) (map (fun v => back (map (fun x => ulaw2linear (linear2ulaw x)) (conv v))) (written ops))) /\
    (exists st, wrun (alawW ch) conv junk true (nistUpdate (fm CAlaw)) (openWrite (alawW ch) (nistInit (fm CAlaw)) nistFirst cap tt) (ops ++ [Sync]) = Ok st /\
      forall X, crashImage B (alawW ch) conv junk (nistUpdate (fm CAlaw)) st ws X ->
      reopens B (nistRead host) X (alawR ch) back (fm CAlaw) 1024 (zlen (written ops)) (map (fun v => back (map (fun x => alaw2linear (linear2alaw x)) (conv v))) (written ops))).
Proof.
  intros B host ch rate Hc Hc2 Hr V W conv back junk cap ops ws fm Hj Hsp Hws Hok Hs.
  assert (Hf : forall c, c = CUlaw \/ c = CAlaw -> nistFmt host rate ch (fm c)) by (intros c Hcc; apply (NF_g711 host rate ch (fm c) c eq_refl Hcc)).
  set (total := zlen (written ops)) in *. pose proof (zlen_nonneg (written ops) : 0 <= total) as Zt.
  assert (Ht : 0 <= total < 2 ^ 31) by (change (2 ^ 31) with 2147483648 in *; nia).
  assert (Fin : forall c (Hcc : c = CUlaw \/ c = CAlaw) f0 t, nistFront (fm c) (fbytes f0) -> w_totalf t = total ->
     nistFirst <= zlen (fbytes (nistUpdate (fm c) f0 t)) /\
     forall X, zfirstn (nistFirst + ch * total) X = zfirstn (nistFirst + ch * total) (fbytes (nistUpdate (fm c) f0 t)) -> nistFirst + ch * total <= zlen X -> exists size f',
       nistRead host (mkFile X 0) = Ok (Some (mkParsed (fm c) 1024 size total, f'))).
  { intros c Hcc f0 t (t0 & rest & Ht0 & E0) T1.
    destruct (nist_header_shape host rate ch (fm c) total (Hf c Hcc) Hr Hc Hc2 Ht) as [L1 _]. destruct (nist_header_shape host rate ch (fm c) t0 (Hf c Hcc) Hr Hc Hc2 Ht0) as [L0 _].
    assert (Eb : fbytes (nistUpdate (fm c) f0 t) = nistHeader (fm c) total ++ rest).
    { unfold nistUpdate, fwrite, fseek. cbn [fbytes fpos]. rewrite E0, T1. apply ow_same. lia. }
    split; [rewrite Eb, zlen_app, L1; pose proof (zlen_nonneg rest); unfold nistFirst; lia|]. intros X EX LX.
    pose proof (fun H1 H2 => same_front _ _ EX H1 Eb H2) as Ex. specialize (Ex ltac:(lia) ltac:(rewrite ?Lh, ?L1; unfold nistFirst; nia)).
    destruct (nist_read host rate ch (fm c) total (zskipn (zlen (nistHeader (fm c) total)) X) (Hf c Hcc) Hr Hc Hc2 Ht) as (f' & RH). rewrite <- Ex in RH.
    eexists _, f'. exact RH. }
  split.
  - destruct (ulaw_crash (W := W) B ch Hc conv back junk (nistUpdate (fm CUlaw)) (nistInit (fm CUlaw)) nistFirst cap ops ws Hj ltac:(unfold nistFirst; lia)
      (nist_keeps host rate ch _ _ _ (Hf _ (or_introl eq_refl)) Hr Hc Hc2 Hc Hs) _ (nist_front host rate ch _ _ _ (Hf _ (or_introl eq_refl)) Hr Hc Hc2 Hc Hs) Hsp Hok Hws)
      as (st & f0 & R & Ef & FR & T0 & T1 & T2 & T3 & Fit & RX).
    exists st. split; [exact R|]. intros X HX. destruct (Fin CUlaw (or_introl eq_refl) f0 (ws_track st) FR T1) as (L & RH). rewrite <- Ef in *.
    destruct (RX X HX (or_intror L)) as (EX & LX & F1 & RD). destruct (RH X EX ltac:(fold total in F1; lia)) as (size & f' & RH').
    exists size, f'. exact (conj RH' RD).
  - destruct (alaw_crash (W := W) B ch Hc conv back junk (nistUpdate (fm CAlaw)) (nistInit (fm CAlaw)) nistFirst cap ops ws Hj ltac:(unfold nistFirst; lia)
      (nist_keeps host rate ch _ _ _ (Hf _ (or_intror eq_refl)) Hr Hc Hc2 Hc Hs) _ (nist_front host rate ch _ _ _ (Hf _ (or_intror eq_refl)) Hr Hc Hc2 Hc Hs) Hsp Hok Hws)
      as (st & f0 & R & Ef & FR & T0 & T1 & T2 & T3 & Fit & RX).
    exists st. split; [exact R|]. intros X HX. destruct (Fin CAlaw (or_intror eq_refl) f0 (ws_track st) FR T1) as (L & RH). rewrite <- Ef in *.
    destruct (RX X HX (or_intror L)) as (EX & LX & F1 & RD). destruct (RH X EX ltac:(fold total in F1; lia)) as (size & f' & RH').
    exists size, f'. exact (conj RH' RD).
Qed.
Print Assumptions C53_nist_g711_after_crash.

Theorem C53_iff_after_crash :
  forall (B : Build) rate, 0 <= rate < 2 ^ 16 ->
  forall ms0 (mss : wtrack -> list (Z * list Z)), (forall t, iffTypes (mss t) /\ sameSizes ms0 (mss t)) ->
  forall (V W : Type) (conv : V -> list Z) (back : list Z -> W) junk cap (ops : list wop) (ws : list (list V)),
    let first := iffFirst rate ms0 in let total := zlen (written ops) in
    zlen junk = 1 -> spaced false (ops ++ [Sync]) -> Forall (fun v => zlen (conv v) = 1) (concat ws) ->
    Forall (fun v => frameOf 1 (fits true 1) (conv v)) (written ops) ->
    first + total < 2 ^ 31 ->
    exists st, wrun (pcmW BigEndian 1 1) conv junk true (fun f t => iffUpdate rate (mss t) f t) (openWrite (pcmW BigEndian 1 1) (iffInit rate ms0) first cap tt) (ops ++ [Sync]) = Ok st /\
      forall X, crashImage B (pcmW BigEndian 1 1) conv junk (fun f t => iffUpdate rate (mss t) f t) st ws X ->
      iffOpens B X (pcmR BigEndian true 1 1) back rate (mss (ws_track st)) first total (map (fun v => back (conv v)) (written ops)).
Proof.
  intros B rate Hr ms0 mss Vx V W conv back junk cap ops ws first total Hj Hsp Hws Hok Hs. change (2 ^ 31) with 2147483648 in Hs.
  pose proof (zlen_nonneg (written ops) : 0 <= total) as Zt.
  assert (H0 : 0 <= first) by (unfold first, iffFirst; pose proof (zlen_nonneg (iffBody rate ms0 0)); lia).
  assert (Sx : forall t, sameSizes ms0 (mss t)) by (intros t; apply Vx).
  assert (M1 : Z.of_nat 1 * 1 = 1) by reflexivity.
  destruct (pcm_crash (W := W) B BigEndian true 1 1 ltac:(lia) ltac:(lia) conv back junk (fun f t => iffUpdate rate (mss t) f t) (iffInit rate ms0) first cap ops ws Hj H0
      (iff_keeps rate ms0 mss total Sx Zt ltac:(fold first; change (2 ^ 32) with 4294967296; lia))
      _ (iff_front rate ms0 mss total Sx Zt ltac:(fold first; change (2 ^ 32) with 4294967296; lia)) Hsp Hok
      ltac:(rewrite M1, Z.mul_1_l; fold total; change (2 ^ 31) with 2147483648; lia) Hws)
      as (st & f0 & R & Ef & HF & T0 & T1 & T2 & T3 & Fit & RX).
  exists st. split; [exact R|]. intros X HX. fold total in T1, T2, T3, Fit, HF, RX. rewrite M1, !Z.mul_1_l in *.
  assert (L0 : first <= zlen (fbytes (ws_file st))).
  { rewrite Ef. destruct HF as (sz & mid & rest & Ls & Lm & E & _). pose proof (iffBody_len rate ms0 (mss (ws_track st)) 0 (w_totalf (ws_track st)) (Sx _)) as EL.
    rewrite (iffUpdate_front rate (mss (ws_track st)) f0 (ws_track st) sz mid rest Ls ltac:(lia) E ltac:(change (2 ^ 32) with 4294967296; lia)).
    rewrite !zlen_app. change (zlen (be4 _)) with 4. change (zlen T_FORM) with 4. change (zlen T_8SVX) with 4. unfold first, iffFirst.
    pose proof (zlen_nonneg (padded (w_totalf (ws_track st)) rest)). lia. }
  destruct (RX X HX (or_intror L0)) as (EX & LX & F1 & RD).
  apply (iff_conclude_front B rate ms0 mss _ back total _ f0 (ws_file st) (ws_track st) X); auto; try (change (2 ^ 32) with 4294967296; fold first; lia).
Qed.
Print Assumptions C53_iff_after_crash.

(** A NeXT file synchronised after three stereo frames; two more frames were being written and six of their eight bytes reached the disk. *)
Example C53_after_crash_example :
  let fm := mkFmt 44100 TwosComp 16 2 BigEndian CNone 1 4 in
  nextPCM TwosComp 2 /\ spaced false ([Write [[1; 2]; [3; -4]]; Sync; Write [[5; 6]]] ++ [Sync]) /\
  Forall (fun v => frameOf 2 (fits true 2) v) (written [Write [[1; 2]; [3; -4]]; Sync; Write [[5; 6]]]) /\
  Forall (fun v : list Z => zlen v = 2) (concat [[[7; 8]]; [[9; 10]]]) /\
  forall B : Build, exists st X f',
    wrun (pcmW BigEndian 2 2) (fun x => x) [0; 0] true (nextUpdate fm) (openWrite (pcmW BigEndian 2 2) (nextInit fm) nextFirst 1024 tt) ([Write [[1; 2]; [3; -4]]; Sync; Write [[5; 6]]] ++ [Sync]) = Ok st /\
    crashImage B (pcmW BigEndian 2 2) (fun x => x) [0; 0] (nextUpdate fm) st [[[7; 8]]; [[9; 10]]] X /\
    zskipn 28 X = [0;1;0;2; 0;3;255;252; 0;5;0;6; 0;7;0;8; 0;9] /\
    nextRead LittleEndian (mkFile X 0) = Ok (Some (mkParsed fm 28 12 3, f')).
Proof.
  split; [constructor; lia|]. split; [cbn; auto|]. split; [unfold fits; repeat constructor; vm_compute; congruence|]. split; [repeat constructor|].
  intros B. eexists. exists (nextHeader (mkFmt 44100 TwosComp 16 2 BigEndian CNone 1 4) 28 12 ++ [0;0;0;0; 0;1;0;2; 0;3;255;252; 0;5;0;6; 0;7;0;8; 0;9]). eexists. split; [vm_compute; reflexivity|]. split; [|split; [vm_compute; reflexivity|vm_compute; reflexivity]].
  eapply (crash_part B _ _ _ _ _ _ _ _ [0; 10]); [vm_compute; reflexivity|vm_compute; discriminate|vm_compute; reflexivity].
Qed.
