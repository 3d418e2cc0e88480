(** * C53: IRCAM and headerless files after a crash, opened again

    Where these files end is told by their length, so after a crash they open with what was on the disk: the frames of the last sync, then perhaps more. *)
From Verif Require Import Prelude PreludeFacts ByteOrder G711 FileIO Reader ReaderSpec ReaderProofs PropertiesReader.
From Verif Require Import Writer WriterSpec WriterProofs WriterHistory Codecs CodecsProofs PropertiesWriter PropertiesRoundTrip HeaderIO FileRoundTrip Float FloatBits IRCAM PropertiesIRCAM Raw PropertiesRaw PropertiesForeign.
From Verif Require Import PropertiesCrash Truncated PropertiesTruncated.

(** The file opens in its format and holds the synchronised frames, possibly followed by others. *)
Definition reopensWithMore {R F W} (B : Build) (read : hP (parsedOf R)) (bytes : list Z) (r : codec F) (back : F -> W) (fm : formatOf R) (first : Z) (synced : list W) : Prop :=
  exists more, reopens B read bytes r back fm first (zlen synced + zlen more) (synced ++ more).

Lemma more_frames {F W} (B : Build) p bpf dec (back : F -> W) X first total total' want :
  readsAs B (PerFrame p bpf dec) back X first total want -> 0 <= first -> 0 < bpf -> 0 <= total <= total' -> first + bpf * total' <= zlen X ->
  exists more, total' = zlen want + zlen more /\ readsAs B (PerFrame p bpf dec) back X first total' (want ++ more).
Proof.
  intros [Lw HR] Hf Hb Ht Hl. set (F' := map dec (chunksOf (Z.to_nat total') bpf (zskipn first X))).
  assert (H : holds (PerFrame p bpf dec) X first total' F') by (split; [exact Hf|]; split; [lia|]; split; [exact Hb|]; split; [exact Hl|]; reflexivity).
  assert (LX : zfirstn (zlen X) X = X) by (apply zfirstn_all; lia).
  assert (0 <= bpf * total <= bpf * total') by nia.
  pose proof (holds_prefix _ X first total' F' total (zlen X) H Ht ltac:(cbn [contains]; lia)) as H2. rewrite LX in H2. pose proof (holds_len _ _ _ _ _ H) as L'. pose proof (holds_len _ _ _ _ _ H2) as L2.
  assert (E : want = map back (zfirstn total F')).
  { assert (S : seeksAllowed total [Read total]) by (right; repeat constructor).
    pose proof (HR false [Read total] S) as E1. pose proof (history _ back false _ _ _ _ [Read total] H2 S (B := B)) as E2. rewrite E1 in E2. clear E1.
    cbn [arun astep a_frames a_pos] in E2. rewrite !zskipn_0 in E2 by lia. rewrite zlen_map, L2, Lw in E2. replace (Z.max 0 (Z.min total (total - 0))) with total in E2 by lia.
    rewrite !zfirstn_all in E2 by (rewrite ?zlen_map; lia). injection E2 as E2.
    clear - E2. revert E2. generalize (map back (zfirstn total F')). intros l. revert l. induction want as [|x want IH]; intros [|y l] E; try discriminate E; [reflexivity|]. cbn [map] in E. injection E as -> E. f_equal. apply IH. exact E. }
  exists (map back (zskipn total F')). assert (EA : want ++ map back (zskipn total F') = map back F') by (rewrite E, <- map_app, zfirstn_skipn; reflexivity).
  split. { rewrite zlen_map, zlen_skipn, L' by lia. lia. } rewrite EA. now apply holds_readsAs.
Qed.

(** ** IRCAM *)
Lemma ircam_opens {W} (B : Build) host (fm : formatOf spec_float) hdr rest (X b : list Z) p bpf dec (back : list Z -> W) total want :
  (forall rest, ircamRead host (mkFile (hdr ++ rest) 0) = Ok (Some (mkParsed fm 1024 (zlen (hdr ++ rest) - 1024) (computeTotal 0 (zlen (hdr ++ rest) - 1024) fm), mkFile (hdr ++ rest) 16))) ->
  zlen hdr = 1024 -> f_fpp fm = 1 -> f_bpp fm = bpf -> 0 < bpf -> 0 <= total -> b = hdr ++ rest ->
  zfirstn (1024 + bpf * total) X = zfirstn (1024 + bpf * total) b -> 1024 + bpf * total <= zlen X -> zlen X < 2 ^ 62 ->
  readsAs B (PerFrame p bpf dec) back X 1024 total want -> reopensWithMore B (ircamRead host) X (PerFrame p bpf dec) back fm 1024 want.
Proof.
  intros HR Lh E1 E2 Hb Ht Eb EX LX Hz RD. change (2 ^ 62) with 4611686018427387904 in Hz.
  assert (0 <= bpf * total) by nia.
  pose proof (same_front hdr rest EX LX Eb ltac:(lia)) as Ex. specialize (HR (zskipn (zlen hdr) X)). rewrite <- Ex in HR.
  assert (Q : 0 <= total <= (zlen X - 1024) / bpf) by (split; [lia|apply Z.div_le_lower_bound; lia]).
  assert (Q2 : bpf * ((zlen X - 1024) / bpf) <= zlen X - 1024) by (apply Z.mul_div_le; lia).
  destruct (more_frames B p bpf dec back X 1024 total ((zlen X - 1024) / bpf) want RD ltac:(lia) Hb Q ltac:(lia)) as (more & En & RD').
  exists more. exists (zlen X - 1024), (mkFile X 16). rewrite <- En. split; [|exact RD'].
  rewrite HR. rewrite computeTotal_floor; auto; [now rewrite E2|lia|change (2 ^ 62) with 4611686018427387904; lia].
Qed.

Lemma ircam_header_pcm host sf n ch (r : spec_float) : ircamPCM sf n -> ircamChannels ch -> validF r = true ->
  let fm := mkFmt (toDouble r) sf (8 * Z.of_nat n) ch host CNone 1 (Z.of_nat n * ch) in
  exists hdr, ircamInit host fm = Some hdr /\ zlen hdr = 1024 /\
    forall rest, ircamRead host (mkFile (hdr ++ rest) 0) = Ok (Some (mkParsed fm 1024 (zlen (hdr ++ rest) - 1024) (computeTotal 0 (zlen (hdr ++ rest) - 1024) fm), mkFile (hdr ++ rest) 16)).
Proof.
  intros Hp Hc Hr fm. assert (Hc0 : 0 < ch <= 4) by (destruct Hc as [->|[->| ->]]; lia).
  destruct (ircam_tail_pcm host sf n r ch (mkFile [] 0) Hp Hc Hr) as (mode & Hm & Em & _).
  pose (hdr := (match host with LittleEndian => vax_le | BigEndian => sun_be end) ++
      sampleBytes host 4 (bits32 (toFloat (toDouble r))) ++ sampleBytes host 4 ch ++ sampleBytes host 4 mode ++ zrepeat 0 (1024 - 16)).
  assert (Eh : ircamInit host fm = Some hdr) by (unfold ircamInit, fm; rewrite Em; reflexivity).
  exists hdr. split; [exact Eh|]. split; [eapply ircamInit_len; eauto|]. intros rest.
  destruct (ircam_tail_pcm host sf n r ch (mkFile (hdr ++ rest) 16) Hp Hc Hr) as (mode' & _ & Em' & RT).
  assert (mode' = mode) as -> by (specialize (Em Z 0 host 0); specialize (Em' Z 0 host 0); congruence).
  rewrite (ircam_read_fields host r ch mode (hdr ++ rest) rest Hr ltac:(change (2 ^ 32) with 4294967296; lia) Hm) by (unfold hdr; rewrite <- !app_assoc; reflexivity).
  exact RT.
Qed.
Lemma ircam_header_g711 host c ch (r : spec_float) : c = CUlaw \/ c = CAlaw -> ircamChannels ch -> validF r = true ->
  let fm := mkFmt (toDouble r) TwosComp 16 ch host c 1 ch in
  exists hdr, ircamInit host fm = Some hdr /\ zlen hdr = 1024 /\
    forall rest, ircamRead host (mkFile (hdr ++ rest) 0) = Ok (Some (mkParsed fm 1024 (zlen (hdr ++ rest) - 1024) (computeTotal 0 (zlen (hdr ++ rest) - 1024) fm), mkFile (hdr ++ rest) 16)).
Proof.
  intros Hp Hc Hr fm. assert (Hc0 : 0 < ch <= 4) by (destruct Hc as [->|[->| ->]]; lia).
  destruct (ircam_tail_g711 host c r ch (mkFile [] 0) Hp Hc Hr) as (mode & Hm & Em & _).
  pose (hdr := (match host with LittleEndian => vax_le | BigEndian => sun_be end) ++
      sampleBytes host 4 (bits32 (toFloat (toDouble r))) ++ sampleBytes host 4 ch ++ sampleBytes host 4 mode ++ zrepeat 0 (1024 - 16)).
  assert (Eh : ircamInit host fm = Some hdr) by (unfold ircamInit, fm; rewrite Em; destruct Hp as [-> | ->]; reflexivity).
  exists hdr. split; [exact Eh|]. split; [eapply ircamInit_len; eauto|]. intros rest.
  destruct (ircam_tail_g711 host c r ch (mkFile (hdr ++ rest) 16) Hp Hc Hr) as (mode' & _ & Em' & RT).
  assert (mode' = mode) as -> by (specialize (Em Z 0 host 0); specialize (Em' Z 0 host 0); congruence).
  rewrite (ircam_read_fields host r ch mode (hdr ++ rest) rest Hr ltac:(change (2 ^ 32) with 4294967296; lia) Hm) by (unfold hdr; rewrite <- !app_assoc; reflexivity).
  exact RT.
Qed.

Theorem C53_ircam_pcm_after_crash :
  forall (B : Build) host sf n ch (r : spec_float), ircamPCM sf n -> ircamChannels ch -> validF r = true ->
  forall (V W : Type) (conv : V -> list Z) (back : list Z -> W) junk cap (ops : list wop) (ws : list (list V)),
    let sgn := match sf with TwosComp => true | _ => false end in
    let bpf := Z.of_nat n * ch in
    let fm := mkFmt (toDouble r) sf (8 * Z.of_nat n) ch host CNone 1 bpf in
    zlen junk = ch -> spaced false (ops ++ [Sync]) -> Forall (fun v => zlen (conv v) = ch) (concat ws) ->
    Forall (fun v => frameOf ch (fits sgn n) (conv v)) (written ops) ->
    1024 + bpf * zlen (written ops) < 2 ^ 31 ->
    exists hdr st, ircamInit host fm = Some hdr /\
      wrun (pcmW host n ch) conv junk true ircamUpdate (openWrite (pcmW host n ch) hdr ircamFirst cap tt) (ops ++ [Sync]) = Ok st /\
      forall X, crashImage B (pcmW host n ch) conv junk ircamUpdate st ws X -> zlen X < 2 ^ 62 ->
      reopensWithMore B (ircamRead host) X (pcmR host sgn n ch) back fm 1024 (map (fun v => back (conv v)) (written ops)).
Proof.
  intros B host sf n ch r Hp Hc Hr V W conv back junk cap ops ws sgn bpf fm Hj Hsp Hws Hok Hs. change (2 ^ 31) with 2147483648 in Hs.
  assert (Hn : (1 <= n)%nat) by (destruct Hp; lia). assert (Hc0 : 0 < ch <= 4) by (destruct Hc as [->|[->| ->]]; lia).
  pose proof (zlen_nonneg (written ops)) as Zt. assert (Pb : 0 < bpf) by (unfold bpf; nia).
  destruct (ircam_header_pcm host sf n ch r Hp Hc Hr) as (hdr & Eh & Lh & HR). fold bpf fm in Eh, HR. set (total := zlen (written ops)) in *.
  pose proof (fixed_front hdr (ircamFirst + Z.of_nat n * ch * total) (Z.of_nat n * ch) ircamUpdate (fun f t => eq_refl) ltac:(rewrite Lh; unfold ircamFirst; fold bpf; nia)) as FO.
  rewrite Lh in FO.
  destruct (pcm_crash (W := W) B host sgn n ch Hn ltac:(lia) conv back junk ircamUpdate hdr ircamFirst cap ops ws Hj ltac:(unfold ircamFirst; lia)
      (updKeeps_for _ _ _ _ (noUpdate_keeps ircamUpdate ircamFirst (fun f t => eq_refl))) _ FO Hsp Hok ltac:(unfold ircamFirst; exact Hs) Hws)
      as (st & f0 & R & Ef & (rest & Er & Lr) & T0 & T1 & T2 & T3 & Fit & RX).
  exists hdr, st. split; [exact Eh|]. split; [exact R|]. intros X HX Hz. unfold ircamUpdate in Ef. unfold ircamFirst in *.
  assert (L0 : 1024 <= zlen (fbytes (ws_file st))) by (rewrite Ef, Er, zlen_app, Lh; pose proof (zlen_nonneg rest); lia).
  destruct (RX X HX (or_intror L0)) as (EX & LX & F1 & RD). fold bpf total in EX, F1.
  eapply (ircam_opens B host fm hdr rest X (fbytes (ws_file st)) true bpf _ back total); [exact HR|exact Lh|reflexivity|reflexivity|exact Pb|exact Zt|rewrite Ef; exact Er|exact EX|lia|exact Hz|exact RD].
Qed.
Print Assumptions C53_ircam_pcm_after_crash.

Theorem C53_ircam_g711_after_crash :
  forall (B : Build) host c ch (r : spec_float), c = CUlaw \/ c = CAlaw -> ircamChannels ch -> validF r = true ->
  forall (V W : Type) (conv : V -> list Z) (back : list Z -> W) junk cap (ops : list wop) (ws : list (list V)),
    let w := match c with CUlaw => ulawW ch | _ => alawW ch end in
    let rd := match c with CUlaw => ulawR ch | _ => alawR ch end in
    let quantise := match c with CUlaw => fun x => ulaw2linear (linear2ulaw x) | _ => fun x => alaw2linear (linear2alaw x) end in
    let fm := mkFmt (toDouble r) TwosComp 16 ch host c 1 ch in
    zlen junk = ch -> spaced false (ops ++ [Sync]) -> Forall (fun v => zlen (conv v) = ch) (concat ws) -> Forall (fun v => zlen (conv v) = ch) (written ops) ->
    exists hdr st, ircamInit host fm = Some hdr /\
      wrun w conv junk true ircamUpdate (openWrite w hdr ircamFirst cap tt) (ops ++ [Sync]) = Ok st /\
      forall X, crashImage B w conv junk ircamUpdate st ws X -> zlen X < 2 ^ 62 ->
      reopensWithMore B (ircamRead host) X rd back fm 1024 (map (fun v => back (map quantise (conv v))) (written ops)).
Proof.
  intros B host c ch r Hcc Hc Hr V W conv back junk cap ops ws w rd quantise fm Hj Hsp Hws Hok.
  assert (Hc0 : 0 < ch <= 4) by (destruct Hc as [->|[->| ->]]; lia).
  pose proof (zlen_nonneg (written ops)) as Zt.
  destruct (ircam_header_g711 host c ch r Hcc Hc Hr) as (hdr & Eh & Lh & HR). fold fm in Eh, HR. set (total := zlen (written ops)) in *.
  pose proof (fixed_front hdr (ircamFirst + ch * total) ch ircamUpdate (fun f t => eq_refl) ltac:(rewrite Lh; unfold ircamFirst; nia)) as FO.
  rewrite Lh in FO.
  assert (XX : exists st f0, wrun w conv junk true ircamUpdate (openWrite w hdr ircamFirst cap tt) (ops ++ [Sync]) = Ok st /\ ws_file st = ircamUpdate f0 (ws_track st) /\
     fixedFront hdr (ircamFirst + ch * total) (fbytes f0) /\
      forall X, crashImage B w conv junk ircamUpdate st ws X -> written ops <> [] \/ ircamFirst <= zlen (fbytes (ws_file st)) ->
        zfirstn (ircamFirst + ch * total) X = zfirstn (ircamFirst + ch * total) (fbytes (ws_file st)) /\ zlen (fbytes (ws_file st)) <= zlen X /\ ircamFirst + ch * total <= zlen (fbytes (ws_file st)) /\
        readsAs B rd back X ircamFirst total (map (fun v => back (map quantise (conv v))) (written ops))).
  { pose proof (updKeeps_for _ _ (ircamFirst + ch * total) ch (noUpdate_keeps ircamUpdate ircamFirst (fun f t => eq_refl))) as UK. unfold w, rd, quantise. destruct Hcc as [-> | ->].
    - destruct (ulaw_crash (W := W) B ch ltac:(lia) conv back junk ircamUpdate hdr ircamFirst cap ops ws Hj ltac:(unfold ircamFirst; lia) UK _ FO Hsp Hok Hws) as (st & f0 & R & Ef & P1 & T0 & T1 & T2 & T3 & Fit & RX). exists st, f0. auto.
    - destruct (alaw_crash (W := W) B ch ltac:(lia) conv back junk ircamUpdate hdr ircamFirst cap ops ws Hj ltac:(unfold ircamFirst; lia) UK _ FO Hsp Hok Hws) as (st & f0 & R & Ef & P1 & T0 & T1 & T2 & T3 & Fit & RX). exists st, f0. auto. }
  destruct XX as (st & f0 & R & Ef & (rest & Er & Lr) & RX).
  exists hdr, st. split; [exact Eh|]. split; [exact R|]. intros X HX Hz. unfold ircamUpdate in Ef. unfold ircamFirst in *.
  assert (L0 : 1024 <= zlen (fbytes (ws_file st))) by (rewrite Ef, Er, zlen_app, Lh; pose proof (zlen_nonneg rest); lia).
  destruct (RX X HX (or_intror L0)) as (EX & LX & F1 & RD).
  unfold rd in *. destruct Hcc as [-> | ->]; (eapply (ircam_opens B host fm hdr rest X (fbytes (ws_file st)) false ch _ back total); [exact HR|exact Lh|reflexivity|reflexivity|lia|exact Zt|rewrite Ef; exact Er|exact EX|lia|exact Hz|exact RD]).
Qed.
Print Assumptions C53_ircam_g711_after_crash.

(** ** Headerless files *)
Lemma raw_opens {R W} (B : Build) (fm : formatOf R) offset (X : list Z) p bpf dec (back : list Z -> W) total want :
  rawFrameSize fm = Ok bpf -> 0 < bpf -> 0 <= total -> 0 <= rawFirst offset -> rawFirst offset + bpf * total <= zlen X ->
  readsAs B (PerFrame p bpf dec) back X (rawFirst offset) total want -> reopensWithMore B (rawRead fm offset None) X (PerFrame p bpf dec) back fm (rawFirst offset) want.
Proof.
  intros E Hb Ht Hf LX RD. assert (0 <= bpf * total) by nia. set (first := rawFirst offset) in *.
  assert (Q : 0 <= total <= (zlen X - first) / bpf) by (split; [lia|apply Z.div_le_lower_bound; lia]).
  assert (Q2 : bpf * ((zlen X - first) / bpf) <= zlen X - first) by (apply Z.mul_div_le; lia).
  destruct (more_frames B p bpf dec back X first total ((zlen X - first) / bpf) want RD Hf Hb Q ltac:(lia)) as (more & En & RD').
  exists more. eexists _, _. rewrite <- En. split; [|exact RD']. apply rawRead_total; auto. fold first. lia.
Qed.

Theorem C53_raw_pcm_after_crash :
  forall (B : Build) R (fm : formatOf R) n offset, rawPCM fm n -> 0 < f_chan fm -> 0 <= rawFirst offset ->
  forall (V W : Type) (conv : V -> list Z) (back : list Z -> W) junk cap (ops : list wop) (ws : list (list V)),
    let ch := f_chan fm in let o := f_order fm in let bpf := Z.of_nat n * ch in let first := rawFirst offset in let total := zlen (written ops) in
    bpf < 2 ^ 24 -> zlen junk = ch -> spaced false (ops ++ [Sync]) -> Forall (fun v => zlen (conv v) = ch) (concat ws) ->
    Forall (fun v => frameOf ch (fits (rawSigned fm) n) (conv v)) (written ops) ->
    first + bpf * total < 2 ^ 31 -> written ops <> [] ->
    exists st, wrun (pcmW o n ch) conv junk true rawUpdate (openWrite (pcmW o n ch) rawInit first cap tt) (ops ++ [Sync]) = Ok st /\
      forall X, crashImage B (pcmW o n ch) conv junk rawUpdate st ws X ->
      reopensWithMore B (rawRead fm offset None) X (pcmR o (rawSigned fm) n ch) back fm first (map (fun v => back (conv v)) (written ops)).
Proof.
  intros B R fm n offset Hp C F V W conv back junk cap ops ws ch o bpf first total Hz Hj Hsp Hws Hok Hs Hne.
  destruct (pcm_size fm n Hp C Hz) as [N E]. fold ch bpf in E. pose proof (zlen_nonneg (written ops)) as T0. fold total in T0. assert (P0 : 0 < bpf) by (unfold bpf, ch; nia).
  destruct (pcm_crash (W := W) B o (rawSigned fm) n ch N C conv back junk rawUpdate rawInit first cap ops ws Hj F (updKeeps_for _ _ _ _ (raw_keeps first)) _
      (raw_front offset (first + bpf * total) bpf ltac:(fold first; nia)) Hsp Hok Hs Hws) as (st & f0 & R1 & Ef & (P1 & P2) & T & T1 & T2 & T3 & Fit & RX).
  exists st. split; [exact R1|]. intros X HX. destruct (RX X HX (or_introl Hne)) as (EX & LX & F1 & RD). fold bpf total in F1.
  eapply (raw_opens B fm offset X true bpf _ back total); [exact E|exact P0|exact T0|exact F|fold first; lia|exact RD].
Qed.
Print Assumptions C53_raw_pcm_after_crash.

Theorem C53_raw_g711_after_crash :
  forall (B : Build) R (fm : formatOf R) offset, rawG711 fm -> 0 < f_chan fm < 2 ^ 23 -> 0 <= rawFirst offset ->
  forall (V W : Type) (conv : V -> list Z) (back : list Z -> W) junk cap (ops : list wop) (ws : list (list V)),
    let ch := f_chan fm in let first := rawFirst offset in
    let w := match f_comp fm with CUlaw => ulawW ch | _ => alawW ch end in
    let r := match f_comp fm with CUlaw => ulawR ch | _ => alawR ch end in
    let quantise := match f_comp fm with CUlaw => fun x => ulaw2linear (linear2ulaw x) | _ => fun x => alaw2linear (linear2alaw x) end in
    zlen junk = ch -> spaced false (ops ++ [Sync]) -> Forall (fun v => zlen (conv v) = ch) (concat ws) -> Forall (fun v => zlen (conv v) = ch) (written ops) -> written ops <> [] ->
    exists st, wrun w conv junk true rawUpdate (openWrite w rawInit first cap tt) (ops ++ [Sync]) = Ok st /\
      forall X, crashImage B w conv junk rawUpdate st ws X ->
      reopensWithMore B (rawRead fm offset None) X r back fm first (map (fun v => back (map quantise (conv v))) (written ops)).
Proof.
  intros B R fm offset G C F V W conv back junk cap ops ws ch first w r quantise Hj Hsp Hws Hok Hne.
  pose proof (g711_size fm G C) as E. fold ch in E. assert (P0 : 0 < ch) by (unfold ch; lia). pose proof (zlen_nonneg (written ops)) as T0. set (total := zlen (written ops)) in *.
  assert (XX : exists st, wrun w conv junk true rawUpdate (openWrite w rawInit first cap tt) (ops ++ [Sync]) = Ok st /\
      forall X, crashImage B w conv junk rawUpdate st ws X -> written ops <> [] \/ first <= zlen (fbytes (ws_file st)) ->
        zfirstn (first + ch * total) X = zfirstn (first + ch * total) (fbytes (ws_file st)) /\ zlen (fbytes (ws_file st)) <= zlen X /\ first + ch * total <= zlen (fbytes (ws_file st)) /\
        readsAs B r back X first total (map (fun v => back (map quantise (conv v))) (written ops))).
  { pose proof (raw_front offset (first + ch * total) ch ltac:(fold first; nia)) as FR. pose proof (updKeeps_for _ _ (first + ch * total) ch (raw_keeps first)) as UK. unfold w, r, quantise. destruct G as ([-> | ->] & _).
    - destruct (ulaw_crash (W := W) B ch P0 conv back junk rawUpdate rawInit first cap ops ws Hj F UK _ FR Hsp Hok Hws) as (st & f0 & R1 & Ef & P1 & T & T1 & T2 & T3 & Fit & RX). exists st. auto.
    - destruct (alaw_crash (W := W) B ch P0 conv back junk rawUpdate rawInit first cap ops ws Hj F UK _ FR Hsp Hok Hws) as (st & f0 & R1 & Ef & P1 & T & T1 & T2 & T3 & Fit & RX). exists st. auto. }
  destruct XX as (st & R1 & RX). exists st. split; [exact R1|]. intros X HX. destruct (RX X HX (or_introl Hne)) as (EX & LX & F1 & RD).
  unfold r in *. destruct G as ([Ec | Ec] & _); rewrite Ec in RD |- *; (eapply (raw_opens B fm offset X false ch _ back total); [exact E|exact P0|exact T0|exact F|fold first; lia|exact RD]).
Qed.
Print Assumptions C53_raw_g711_after_crash.

(** One more frame than was synchronised reached the disk, and half of the next. *)
Example C53_open_example :
  let fm := mkFmt (toDouble PropertiesIRCAM.ex44100f) TwosComp 16 1 LittleEndian CNone 1 2 in
  validF PropertiesIRCAM.ex44100f = true /\ ircamPCM TwosComp 2 /\ ircamChannels 1 /\ spaced false ([Write [[1]; [2]]] ++ [Sync]) /\
  forall B : Build, exists hdr st X f', ircamInit LittleEndian fm = Some hdr /\
    wrun (pcmW LittleEndian 2 1) (fun x => x) [0] true ircamUpdate (openWrite (pcmW LittleEndian 2 1) hdr ircamFirst 1024 tt) ([Write [[1]; [2]]] ++ [Sync]) = Ok st /\
    crashImage B (pcmW LittleEndian 2 1) (fun x => x) [0] ircamUpdate st [[[3]; [4]]] X /\ zskipn 1024 X = [1;0; 2;0; 3;0; 4] /\
    ircamRead LittleEndian (mkFile X 0) = Ok (Some (mkParsed fm 1024 7 3, f')).
Proof.
  intros fm. split; [vm_compute; reflexivity|]. split; [constructor; lia|]. split; [left; reflexivity|]. split; [cbn; auto|].
  intros B. destruct (ircamInit LittleEndian fm) as [hdr|] eqn:Eh; [|vm_compute in Eh; discriminate Eh].
  exists hdr. eexists _, (hdr ++ [1;0; 2;0; 3;0; 4]), _. split; [reflexivity|].
  vm_compute in Eh. injection Eh as <-.
  split; [vm_compute; reflexivity|]. split; [|split; [vm_compute; reflexivity|vm_compute; reflexivity]].
  eapply (crash_part B _ _ _ _ _ _ _ _ [0]); [vm_compute; reflexivity|vm_compute; discriminate|vm_compute; reflexivity].
Qed.
