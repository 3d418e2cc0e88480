(** * C31: BICSF (IRCAM) files, written and read back *)
From Verif Require Import Prelude PreludeFacts ByteOrder G711 FileIO Reader ReaderSpec PropertiesReader.
From Verif Require Import Writer WriterSpec WriterProofs WriterHistory Codecs CodecsProofs PropertiesWriter PropertiesRoundTrip HeaderIO FileRoundTrip Float FloatBits IRCAM.

(** Files whose header never changes. *)
Definition fixedFront (hdr : list Z) (limit : Z) (b : list Z) : Prop := exists rest, b = hdr ++ rest /\ zlen b <= limit.
Lemma fixed_front hdr limit bpf upd : (forall f t, fbytes (upd f t) = fbytes f) -> zlen hdr <= limit -> frontOK (fixedFront hdr limit) hdr (zlen hdr) limit bpf upd.
Proof.
  intros Hu Hl. pose proof (zlen_nonneg hdr) as Zh. split.
  - intros b p d Hp Hd (rest & -> & L). exists (overwrite rest (p - zlen hdr) d). split; [apply ow_past; exact Hp|].
    destruct d as [|y d]; [exact L|]. rewrite ow_len by (try discriminate; lia). lia.
  - intros f t _ _ _ _ H. rewrite Hu. exact H.
  - exists []. rewrite app_nil_r. auto.
Qed.
Lemma noUpdate_keeps upd first : (forall f t, fbytes (upd f t) = fbytes f) -> updKeeps upd first.
Proof. intros Hu f t _. now rewrite Hu. Qed.

(** The uncompressed formats: sample format and bytes per sample. *)
Inductive ircamPCM : sampfmt -> nat -> Prop :=
| IP_int n : (1 <= n <= 4)%nat -> ircamPCM TwosComp n
| IP_float : ircamPCM Float 4
| IP_double : ircamPCM Double 8.
Definition ircamChannels (ch : Z) : Prop := ch = 1 \/ ch = 2 \/ ch = 4.

Lemma ircamInit_len host f h : ircamInit host f = Some h -> zlen h = 1024.
Proof.
  unfold ircamInit. destruct (packMode f); [|discriminate]. intros [= <-]. rewrite !zlen_app, !sampleBytes_zlen. destruct host; reflexivity.
Qed.

Lemma ircam_read_fields host (r : spec_float) ch mode b rest : validF r = true -> 0 <= ch < 2 ^ 32 -> 0 <= mode < 2 ^ 32 ->
  b = (match host with LittleEndian => vax_le | BigEndian => sun_be end) ++
      sampleBytes host 4 (bits32 (toFloat (toDouble r))) ++ sampleBytes host 4 ch ++ sampleBytes host 4 mode ++ zrepeat 0 (1024 - 16) ++ rest ->
  ircamRead host (mkFile b 0) = ircamTail host (match host with LittleEndian => true | BigEndian => false end) (bits32 r) ch mode (mkFile b 16).
Proof.
  intros Hr Hc Hm Eb. rewrite toFloat_toDouble in Eb by exact Hr. destruct (bits32_round r Hr) as [Hb _]. change (2 ^ 32) with 4294967296 in *.
  unfold ircamRead. rewrite st_seek. cbn [fbytes].
  assert (H : zskipn 0 b = (match host with LittleEndian => vax_le | BigEndian => sun_be end) ++
      sampleBytes host 4 (bits32 r) ++ sampleBytes host 4 ch ++ sampleBytes host 4 mode ++ zrepeat 0 (1024 - 16) ++ rest) by (rewrite zskipn_0 by lia; exact Eb).
  clear Eb. destruct host.
  - change (hread 4) with (hread (zlen sun_be)). hstep H. change (negb (zlen sun_be =? 4)) with false. change (isMagic ircamMagics sun_be) with true. change (isMagic ircamLE sun_be) with false.
    cbn [negb]. cbv zeta. change (0 + zlen sun_be) with 4 in *. do 3 hstep H. change (8 * Z.of_nat 4) with 32. change (2 ^ 32) with 4294967296. rewrite !Z.mod_small by lia. reflexivity.
  - change (hread 4) with (hread (zlen vax_le)). hstep H. change (negb (zlen vax_le =? 4)) with false. change (isMagic ircamMagics vax_le) with true. change (isMagic ircamLE vax_le) with true.
    cbn [negb]. cbv zeta. change (0 + zlen vax_le) with 4 in *. do 3 hstep H. change (8 * Z.of_nat 4) with 32. change (2 ^ 32) with 4294967296. rewrite !Z.mod_small by lia. reflexivity.
Qed.

Lemma ircam_tail_pcm host sf n r ch f : ircamPCM sf n -> ircamChannels ch -> validF r = true ->
  exists mode, 0 <= mode < 2 ^ 32 /\
  (forall R (rate : R) o bpp, packMode (mkFmt rate sf (8 * Z.of_nat n) ch o CNone 1 bpp) = Some mode) /\
  let fm := mkFmt (toDouble r) sf (8 * Z.of_nat n) ch host CNone 1 (Z.of_nat n * ch) in
  ircamTail host (match host with LittleEndian => true | BigEndian => false end) (bits32 r) ch mode f =
    Ok (Some (mkParsed fm 1024 (flength f - 1024) (computeTotal 0 (flength f - 1024) fm), f)).
Proof.
  intros Hp Hc Hr. destruct (bits32_round r Hr) as [_ E]. unfold ircamTail. rewrite E. clear E Hr.
  assert (O : (if match host with LittleEndian => true | BigEndian => false end then LittleEndian else BigEndian) = host) by (destruct host; reflexivity).
  rewrite O. clear O. generalize (toDouble r). clear r. intros r. unfold hlength, hbind, hlift, hret. cbv zeta.
  destruct Hp as [n Hn| |].
  - assert (n = 1 \/ n = 2 \/ n = 3 \/ n = 4)%nat as D by lia. clear Hn.
    destruct D as [->|[->|[->| ->]]]; [exists 1|exists 2|exists 3|exists 0x40004]; (split; [lia|]; split; [reflexivity|]);
      destruct Hc as [->|[->| ->]]; reflexivity.
  - exists 4. split; [lia|]. split; [reflexivity|]. destruct Hc as [->|[->| ->]]; reflexivity.
  - exists 8. split; [lia|]. split; [reflexivity|]. destruct Hc as [->|[->| ->]]; reflexivity.
Qed.
Lemma ircam_tail_g711 host c r ch f : c = CUlaw \/ c = CAlaw -> ircamChannels ch -> validF r = true ->
  exists mode, 0 <= mode < 2 ^ 32 /\
  (forall R (rate : R) o bpp, packMode (mkFmt rate TwosComp 16 ch o c 1 bpp) = Some mode) /\
  let fm := mkFmt (toDouble r) TwosComp 16 ch host c 1 ch in
  ircamTail host (match host with LittleEndian => true | BigEndian => false end) (bits32 r) ch mode f =
    Ok (Some (mkParsed fm 1024 (flength f - 1024) (computeTotal 0 (flength f - 1024) fm), f)).
Proof.
  intros Hp Hc Hr. destruct (bits32_round r Hr) as [_ E]. unfold ircamTail. rewrite E. clear E Hr.
  generalize (toDouble r). clear r. intros r. unfold hlength, hbind, hlift, hret. cbv zeta.
  destruct Hp as [-> | ->]; [exists 0x20001|exists 0x10001]; (split; [lia|]; split; [reflexivity|]); destruct Hc as [->|[->| ->]]; reflexivity.
Qed.

(** PCM samples in the machine's byte order (the default), rates that a float can hold, files below 2 GiB. *)
Theorem C31_ircam_pcm_roundtrip_partial :
  forall (B : Build) host sf n ch (r : spec_float), ircamPCM sf n -> ircamChannels ch -> validF r = true ->
  forall (V W : Type) (conv : V -> list Z) (back : list Z -> W) junk cap (ops : list wop),
    let sgn := match sf with TwosComp => true | _ => false end in
    let bpf := Z.of_nat n * ch in
    let fm := mkFmt (toDouble r) sf (8 * Z.of_nat n) ch host CNone 1 bpf in
    zlen junk = ch -> spaced false (ops ++ [Sync]) ->
    Forall (fun v => frameOf ch (fits sgn n) (conv v)) (written ops) ->
    1024 + bpf * zlen (written ops) < 2 ^ 31 ->
    exists hdr st, ircamInit host fm = Some hdr /\
      wrun (pcmW host n ch) conv junk true ircamUpdate (openWrite (pcmW host n ch) hdr ircamFirst cap tt) (ops ++ [Sync]) = Ok st /\
      reopens B (ircamRead host) (fbytes (ws_file st)) (pcmR host sgn n ch) back fm 1024 (zlen (written ops)) (map (fun v => back (conv v)) (written ops)).
Proof.
  intros B host sf n ch r Hp Hc Hr V W conv back junk cap ops sgn bpf fm Hj Hsp Hok Hs. change (2 ^ 31) with 2147483648 in Hs.
  assert (Hn : (1 <= n)%nat) by (destruct Hp; lia). assert (Hc0 : 0 < ch <= 4) by (destruct Hc as [->|[->| ->]]; lia).
  pose proof (zlen_nonneg (written ops)) as Zt. assert (Pb : 0 < bpf) by (unfold bpf; nia).
  destruct (ircam_tail_pcm host sf n r ch (mkFile [] 0) Hp Hc Hr) as (mode & Hm & Em & _).
  pose (hdr := (match host with LittleEndian => vax_le | BigEndian => sun_be end) ++
      sampleBytes host 4 (bits32 (toFloat (toDouble r))) ++ sampleBytes host 4 ch ++ sampleBytes host 4 mode ++ zrepeat 0 (1024 - 16)).
  assert (Eh : ircamInit host fm = Some hdr) by (unfold ircamInit, fm; rewrite Em; reflexivity).
  pose proof (ircamInit_len _ _ _ Eh) as Lh. set (total := zlen (written ops)) in *.
  pose proof (fixed_front hdr (ircamFirst + Z.of_nat n * ch * total) (Z.of_nat n * ch) ircamUpdate (fun f t => eq_refl) ltac:(rewrite Lh; unfold ircamFirst; fold bpf; nia)) as FO.
  rewrite Lh in FO.
  destruct (pcm_file (W := W) B host sgn n ch Hn ltac:(lia) conv back junk ircamUpdate hdr ircamFirst cap ops Hj ltac:(unfold ircamFirst; lia)
      (updKeeps_for _ _ _ _ (noUpdate_keeps ircamUpdate ircamFirst (fun f t => eq_refl))) _ FO Hsp Hok ltac:(unfold ircamFirst; exact Hs))
      as (st & f0 & R & Ef & (rest & Er & Lr) & T0 & T1 & T2 & T3 & Fit & RD).
  exists hdr, st. split; [exact Eh|]. split; [exact R|]. fold total in Fit, RD. fold bpf in Fit, Lr.
  unfold ircamUpdate in Ef. rewrite Ef in *. clear Ef. unfold ircamFirst in *.
  assert (L0 : 1024 <= zlen (fbytes f0)) by (rewrite Er, zlen_app, Lh; pose proof (zlen_nonneg rest); lia).
  assert (Lz : zlen (fbytes f0) = 1024 + bpf * total).
  { assert (1024 + bpf * total <= zlen (fbytes f0)); [|lia]. destruct (written ops) eqn:E; [unfold total; change (zlen (@nil V)) with 0; lia|]. apply Fit. congruence. }
  specialize (RD (or_intror L0)).
  destruct (ircam_tail_pcm host sf n r ch (mkFile (fbytes f0) 16) Hp Hc Hr) as (mode' & _ & Em' & RT).
  assert (mode' = mode) as -> by (specialize (Em Z 0 host 0); specialize (Em' Z 0 host 0); congruence).
  exists (bpf * total), (mkFile (fbytes f0) 16). split; [|exact RD].
  rewrite (ircam_read_fields host r ch mode (fbytes f0) rest Hr ltac:(change (2 ^ 32) with 4294967296; lia) Hm) by (rewrite Er; unfold hdr; rewrite <- !app_assoc; reflexivity).
  cbv zeta in RT. unfold flength in RT. cbn [fbytes] in RT. rewrite Lz in RT. replace (1024 + bpf * total - 1024) with (bpf * total) in RT by lia.
  rewrite RT. fold bpf fm. rewrite computeTotal_exact; auto. change (2 ^ 62) with 4611686018427387904. lia.
Qed.
Print Assumptions C31_ircam_pcm_roundtrip_partial.

(** G.711, files of any length. *)
Theorem C31_ircam_g711_roundtrip_partial :
  forall (B : Build) host ch (r : spec_float), ircamChannels ch -> validF r = true ->
  forall (V W : Type) (conv : V -> list Z) (back : list Z -> W) junk cap (ops : list wop),
    let fm c := mkFmt (toDouble r) TwosComp 16 ch host c 1 ch in
    zlen junk = ch -> spaced false (ops ++ [Sync]) -> Forall (fun v => zlen (conv v) = ch) (written ops) ->
    ch * zlen (written ops) < 2 ^ 62 ->
    (exists hdr st, ircamInit host (fm CUlaw) = Some hdr /\
      wrun (ulawW ch) conv junk true ircamUpdate (openWrite (ulawW ch) hdr ircamFirst cap tt) (ops ++ [Sync]) = Ok st /\
      reopens B (ircamRead host) (fbytes (ws_file st)) (ulawR ch) back (fm CUlaw) 1024 (zlen (written ops))
        (map (fun v => back (map (fun x => ulaw2linear (linear2ulaw x)) (conv v))) (written ops))) /\
    (exists hdr st, ircamInit host (fm CAlaw) = Some hdr /\
      wrun (alawW ch) conv junk true ircamUpdate (openWrite (alawW ch) hdr ircamFirst cap tt) (ops ++ [Sync]) = Ok st /\
      reopens B (ircamRead host) (fbytes (ws_file st)) (alawR ch) back (fm CAlaw) 1024 (zlen (written ops))
        (map (fun v => back (map (fun x => alaw2linear (linear2alaw x)) (conv v))) (written ops))).
Proof.
  intros B host ch r Hc Hr V W conv back junk cap ops fm Hj Hsp Hok Hs.
  assert (Hc0 : 0 < ch <= 4) by (destruct Hc as [->|[->| ->]]; lia). pose proof (zlen_nonneg (written ops)) as Zt. set (total := zlen (written ops)) in *.
  assert (H : forall c, c = CUlaw \/ c = CAlaw -> exists hdr, ircamInit host (fm c) = Some hdr /\ zlen hdr = 1024 /\
     frontOK (fixedFront hdr (ircamFirst + ch * total)) hdr ircamFirst (ircamFirst + ch * total) ch ircamUpdate /\
     (forall b, fixedFront hdr (ircamFirst + ch * total) b -> 1024 <= zlen b /\
        (1024 + ch * total <= zlen b -> exists f', ircamRead host (mkFile b 0) = Ok (Some (mkParsed (fm c) 1024 (ch * total) total, f'))))).
  { intros c Hcc. destruct (ircam_tail_g711 host c r ch (mkFile [] 0) Hcc Hc Hr) as (mode & Hm & Em & _).
    pose (hdr := (match host with LittleEndian => vax_le | BigEndian => sun_be end) ++
      sampleBytes host 4 (bits32 (toFloat (toDouble r))) ++ sampleBytes host 4 ch ++ sampleBytes host 4 mode ++ zrepeat 0 (1024 - 16)).
    assert (Eh : ircamInit host (fm c) = Some hdr) by (unfold ircamInit, fm; rewrite Em; destruct Hcc as [-> | ->]; reflexivity).
    pose proof (ircamInit_len _ _ _ Eh) as Lh. exists hdr. split; [exact Eh|]. split; [exact Lh|]. split.
    - pose proof (fixed_front hdr (ircamFirst + ch * total) ch ircamUpdate (fun f t => eq_refl) ltac:(rewrite Lh; unfold ircamFirst; nia)) as FO. rewrite Lh in FO. exact FO.
    - intros b (rest & Er & Lr). unfold ircamFirst in Lr.
      assert (L0 : 1024 <= zlen b) by (rewrite Er, zlen_app, Lh; pose proof (zlen_nonneg rest); lia).
      split; [exact L0|]. intros Lb. assert (Lz : zlen b = 1024 + ch * total) by lia.
      destruct (ircam_tail_g711 host c r ch (mkFile b 16) Hcc Hc Hr) as (mode' & _ & Em' & RT).
      assert (mode' = mode) as -> by (specialize (Em Z 0 host 0); specialize (Em' Z 0 host 0); congruence).
      exists (mkFile b 16). rewrite (ircam_read_fields host r ch mode b rest Hr ltac:(change (2 ^ 32) with 4294967296; lia) Hm) by (rewrite Er; unfold hdr; rewrite <- !app_assoc; reflexivity).
      cbv zeta in RT. unfold flength in RT. cbn [fbytes] in RT. rewrite Lz in RT. replace (1024 + ch * total - 1024) with (ch * total) in RT by lia.
      rewrite RT. fold (fm c). rewrite computeTotal_exact; auto; try lia; destruct Hcc as [-> | ->]; reflexivity. }
  assert (K : keepsFor ircamUpdate ircamFirst (ircamFirst + ch * total) ch) by (apply updKeeps_for, noUpdate_keeps; reflexivity).
  split.
  - destruct (H CUlaw (or_introl eq_refl)) as (hdr & Eh & Lh & FO & RH).
    destruct (ulaw_file (W := W) B ch ltac:(lia) conv back junk ircamUpdate hdr ircamFirst cap ops Hj ltac:(unfold ircamFirst; lia) K _ FO Hsp Hok)
      as (st & f0 & R & Ef & HF & T0 & T1 & T2 & T3 & Fit & RD).
    exists hdr, st. split; [exact Eh|]. split; [exact R|]. unfold ircamUpdate in Ef. rewrite Ef in *. destruct (RH _ HF) as [L0 RH'].
    destruct RH' as [f' RH']; [|exists (ch * total), f'; split; [exact RH'|apply RD; right; exact L0]].
    destruct (written ops) eqn:E; [unfold total; change (zlen (@nil V)) with 0; lia|]. apply Fit. congruence.
  - destruct (H CAlaw (or_intror eq_refl)) as (hdr & Eh & Lh & FO & RH).
    destruct (alaw_file (W := W) B ch ltac:(lia) conv back junk ircamUpdate hdr ircamFirst cap ops Hj ltac:(unfold ircamFirst; lia) K _ FO Hsp Hok)
      as (st & f0 & R & Ef & HF & T0 & T1 & T2 & T3 & Fit & RD).
    exists hdr, st. split; [exact Eh|]. split; [exact R|]. unfold ircamUpdate in Ef. rewrite Ef in *. destruct (RH _ HF) as [L0 RH'].
    destruct RH' as [f' RH']; [|exists (ch * total), f'; split; [exact RH'|apply RD; right; exact L0]].
    destruct (written ops) eqn:E; [unfold total; change (zlen (@nil V)) with 0; lia|]. apply Fit. congruence.
Qed.
Print Assumptions C31_ircam_g711_roundtrip_partial.

Definition ex44100f := fOfZ 44100.
Example C31_example :
  validF ex44100f = true /\ ircamPCM TwosComp 3 /\ ircamChannels 2 /\
  forall B : Build, exists hdr st f', let fm := mkFmt (toDouble ex44100f) TwosComp 24 2 LittleEndian CNone 1 6 in
    ircamInit LittleEndian fm = Some hdr /\
    wrun (pcmW LittleEndian 3 2) (fun x => x) [0; 0] true ircamUpdate (openWrite (pcmW LittleEndian 3 2) hdr ircamFirst 1024 tt) [Write [[1; 2]; [3; -4]]; Sync; Write [[5; 6]]; Sync] = Ok st /\
    zskipn 1024 (fbytes (ws_file st)) = [1;0;0; 2;0;0; 3;0;0; 252;255;255; 5;0;0; 6;0;0] /\
    ircamRead LittleEndian (mkFile (fbytes (ws_file st)) 0) = Ok (Some (mkParsed fm 1024 18 3, f')).
Proof.
  split; [vm_compute; reflexivity|]. split; [constructor; lia|]. split; [right; left; reflexivity|].
  intros B. do 3 eexists. cbv zeta. split; [vm_compute; reflexivity|]. split; [vm_compute; reflexivity|]. split; vm_compute; reflexivity.
Qed.

(** The header always declares the machine's byte order, but the setup may ask for the other one, which completeSetup accepts:
    a 16-bit file of the other order reads back byte-swapped. *)
Theorem C31_ircam_byte_order_refuted :
  forall B : Build, exists hdr st f', let fm o := mkFmt (toDouble ex44100f) TwosComp 16 1 o CNone 1 2 in
    ircamInit LittleEndian (fm BigEndian) = Some hdr /\
    wrun (pcmW BigEndian 2 1) (fun x => x) [0] true ircamUpdate (openWrite (pcmW BigEndian 2 1) hdr ircamFirst 1024 tt) [Write [[1]]; Sync] = Ok st /\
    ircamRead LittleEndian (mkFile (fbytes (ws_file st)) 0) = Ok (Some (mkParsed (fm LittleEndian) 1024 2 1, f')) /\
    holds (pcmR LittleEndian true 2 1) (fbytes (ws_file st)) 1024 1 [[256]].
Proof.
  intros B. do 3 eexists. cbv zeta. split; [vm_compute; reflexivity|]. split; [vm_compute; reflexivity|]. split; [vm_compute; reflexivity|].
  vm_compute. repeat split; congruence.
Qed.
Print Assumptions C31_ircam_byte_order_refuted.

(** Sample rates that are not floats are rounded. *)
Theorem C31_ircam_rate_refuted :
  forall host, exists hdr f', let fm x := mkFmt x TwosComp 8 1 host CNone 1 1 in
    ircamInit host (fm (dOfZ 16777217)) = Some hdr /\
    ircamRead host (mkFile hdr 0) = Ok (Some (mkParsed (fm (dOfZ 16777216)) 1024 0 0, f')).
Proof. intros host. destruct host; do 2 eexists; cbv zeta; (split; [vm_compute; reflexivity|]); vm_compute; reflexivity. Qed.
Print Assumptions C31_ircam_rate_refuted.

(** ** C57: opening.  A file that stops within the header's fields: they are used uninitialised. *)
Theorem C57_ircam_short_refuted : forall host, ircamRead host (mkFile vax_le 0) = UB.
Proof. intros host. vm_compute. reflexivity. Qed.
Print Assumptions C57_ircam_short_refuted.
(** Every longer file opens without undefined behaviour. *)
Theorem C57_ircam_defined_partial : forall host b, 16 <= zlen b -> exists r, ircamRead host (mkFile b 0) = Ok r.
Proof.
  intros host b Hb. unfold ircamRead. rewrite st_seek. cbn [fbytes].
  assert (S : forall p (k : list Z -> hP (parsedOf spec_float)) n, 0 <= p -> 0 <= n -> p + n <= zlen b -> hbind (hread n) k (mkFile b p) = k (zfirstn n (zskipn p b)) (mkFile b (p + n))).
  { intros p k n Hp Hn Hl. unfold hbind, hread, fread. cbn [fbytes fpos rbind]. rewrite zlen_firstn by lia. rewrite zlen_skipn by lia. do 2 f_equal. lia. }
  rewrite S by lia. destruct (negb _); [eexists; reflexivity|]. destruct (negb _); [eexists; reflexivity|]. cbv zeta.
  assert (SU : forall p (k : Z -> hP (parsedOf spec_float)) o, 0 <= p -> p + 4 <= zlen b -> exists v, hbind (readU o 4) k (mkFile b p) = k v (mkFile b (p + 4))).
  { intros p k o Hp Hl. unfold hbind, readU, fread. cbn [fbytes fpos]. change (Z.of_nat 4) with 4. rewrite zlen_firstn, zlen_skipn by lia. replace (Z.min 4 (Z.max 0 (zlen b - p))) with 4 by lia. cbn [Z.eqb Pos.eqb rbind]. eexists. reflexivity. }
  do 3 (match goal with |- context [hbind (readU ?o 4) ?k (mkFile b ?p)] => destruct (SU p k o ltac:(lia) ltac:(lia)) as [? E]; rewrite E; clear E end).
  unfold ircamTail. match goal with |- context [if ?c then hfail else _] => destruct c eqn:EC end; [eexists; reflexivity|].
  assert (BP : forall w, 0 <= w <= 64 -> exists bp, bppPCM w x0 = Ok bp).
  { intros w Hw. unfold bppPCM, ck32, inS. change (2 ^ (32 - 1)) with 2147483648. assert (0 <= Z.quot (w + 7) 8 <= 8) by (rewrite Z.quot_div_nonneg by lia; lia).
    set (q := Z.quot (w + 7) 8) in *. clearbody q. assert (0 <= q * x0 <= 32) by (assert (x0 = 1 \/ x0 = 2 \/ x0 = 4) as [->|[->| ->]] by lia; lia).
    replace ((- (2147483648) <=? q * x0) && (q * x0 <? 2147483648)) with true by lia. eexists. reflexivity. }
  unfold hbind, hlift, hret, hlength, hfail.
  repeat match goal with |- context [if ?c then _ else _] => match c with _ =? _ => destruct c | _ => fail end end;
    try (match goal with |- context [bppPCM ?w x0] => destruct (BP w ltac:(lia)) as [bp EB]; rewrite EB end); cbn [rbind]; eexists; reflexivity.
Qed.
Print Assumptions C57_ircam_defined_partial.
