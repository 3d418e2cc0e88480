(** * C49, C62, C63: setups and opening files for writing *)
From Verif Require Import Prelude PreludeFacts ByteOrder Convert Float HeaderIO VOC IRCAM NIST WAVE Extended Setup SetupFacts SetupSpec SetupProofs SetupReuse.
From Verif Require Arrange.

(** ** C49: what afOpenFile accepts, the file format can hold *)

(** Whatever calls made the setup: opening a file for writing with it is defined and does not abort, and if a handle is returned, the file's
    format is one this file format can hold.  Missing: the number of channels and the sample rate are not checked by most formats, a raw
    file needs a codec without parameters, and NIST with G.711 more than 8 bits (the theorems below). *)
Theorem C49_accepted_setup_is_writable_partial :
  forall (B : Build) host calls s, made host calls s ->
    (su_file s <> F_IFF -> su_file s <> F_IRCAM -> channelsFit (su_file s) (a_chan (su_fmt s))) ->
    rateFits (su_file s) (a_rate (su_fmt s)) (a_width (su_fmt s)) (a_chan (su_fmt s)) ->
    (su_file s = F_RAW -> In (a_comp (su_fmt s)) [CNone; CUlaw; CAlaw]) ->
    (su_file s = F_NIST -> a_comp (su_fmt s) = CNone \/ 8 < a_width (su_fmt s)) ->
    exists r, openWrite host s = Ok r /\
      match r with
      | None => True
      | Some (f, v) => canHold host (su_file s) (a_sf f) (a_width f) (a_order f) (a_comp f) (a_chan f)
      end.
Proof.
  intros B host calls s Hm Hch Hr Hraw Hn. destruct (made_sane _ _ _ Hm) as [Hs Ht]. unfold openWrite.
  destruct (complete host s) as [ok f] eqn:Ec. destruct ok; cbn [negb]; [|eexists; split; [reflexivity|exact I]].
  pose proof (complete_completed _ _ _ Hs Ht Ec) as C. rewrite (writeInit_ok B host s f Hs Ht C Hr Hn). cbn [rbind negb].
  destruct (cp_keep _ _ _ C) as [Kc Kr].
  destruct (formatOk_cases B host f) as (b & Eb & Hb); [rewrite Kc; apply (td_comp _ Ht)|apply (cp_pcm _ _ _ C)|]. rewrite Eb. cbn [rbind].
  destruct b; cbn [negb]; [|eexists; split; [reflexivity|exact I]]. specialize (Hb eq_refl).
  assert (Hi : initModule (su_file s) f = Ok tt).
  { unfold initModule. rewrite Kc. destruct (su_file s); try reflexivity. specialize (Hraw eq_refl). destruct (a_comp (su_fmt s)); try reflexivity; cbn in Hraw; intuition discriminate. }
  rewrite Hi. cbn [rbind]. eexists. split; [reflexivity|]. cbv beta iota.
  assert (Hn2 : channelsFit (su_file s) (a_chan f)).
  { destruct (su_file s) eqn:Ef; try (destruct (cp_chan _ _ _ C) as [->|[D _]]; [apply Hch; discriminate|congruence]).
    - exact (cp_ircam _ _ _ C Ef).
    - cbn. exact (cp_one _ _ _ C Ef). }
  pose proof (cp_comp _ _ _ C) as Gc. unfold goodComp in Gc. pose proof (cp_linear _ _ _ C) as Gl. unfold goodLinear in Gl.
  assert (Raw : su_file s = F_RAW -> In (a_comp f) [CNone; CUlaw; CAlaw]) by (rewrite Kc; exact Hraw).
  unfold canHold, okFormat. destruct (a_comp f) eqn:Ecf; cbn [a_sf a_width a_order a_comp a_chan setOrder]; rewrite ?Ecf; (split; [exact Hn2|]).
  - apply Gl. reflexivity.
  - split; [exact Gc|exact Hb].
  - split; [exact Gc|exact Hb].
  - split; [|destruct Hb as (A1 & A2 & A3 & A4); intuition lia]. destruct Gc as [Gc|Gc]; [|exact Gc]. specialize (Raw (eq_sym Gc)). cbn in Raw. intuition discriminate.
  - split; [|destruct Hb as (A1 & A2 & A3 & A4); intuition lia]. destruct Gc as [Gc|[Gc|[]]]; [|congruence]. specialize (Raw (eq_sym Gc)). cbn in Raw. intuition discriminate.
  - destruct Gc.
  - destruct Hb as (A1 & A2 & A3). split; [|repeat split; assumption].
    destruct Gc as [Gc|[Gc|[]]]; [|congruence]. specialize (Raw (eq_sym Gc)). cbn in Raw. intuition discriminate.
Qed.
Print Assumptions C49_accepted_setup_is_writable_partial.

(** Everything the file format can hold can be asked for: the setup is accepted, and the file has exactly the format asked for. *)
Definition request (ff : ffmt) (sf : sampfmt) (w : Z) (o : order) (n : Z) (r : spec_float) (c : compression) : list scall :=
  [SFileFormat ff; SSampleFormat sf w; SByteOrder o; SChannels n; SRate r; SCompression c].
Theorem C49_supported_setup_is_accepted :
  forall (B : Build) host ff sf w o c n r,
    canHold host ff sf w o c n -> validD r = true -> SFltb (dOfZ 0) r = true -> rateFits ff r w n ->
    openWrite host (fold_left scallStep (request ff sf w o n r c) (newSetup host)) =
      Ok (Some (AFmt r sf w o (mappingOf sf w) n c, AFmt r sf w host (mappingOf sf w) n CNone)).
Proof.
  intros B host ff sf w o c n r [Hn Hh] Hv Hp Hr.
  assert (Hw : widthOk sf w).
  { destruct c; cbn in Hh; [|destruct Hh as (_ & -> & -> & _); cbn; lia|destruct Hh as (_ & -> & -> & _); cbn; lia|destruct Hh as (_ & -> & -> & _); cbn; lia
                            |destruct Hh as (_ & -> & -> & _); cbn; lia|destruct Hh|destruct Hh as (_ & -> & Hw & _); cbn in Hw |- *; lia].
    destruct ff, sf; cbn in Hh |- *; intuition (try discriminate; try lia). }
  assert (Hn1 : 1 <= n < 2147483648) by (destruct ff; cbn in Hn; lia).
  assert (Hz : SFleb r (dOfZ 0) = false).
  { unfold SFltb, SFleb in *. change (dOfZ 0) with (S754_zero false) in *. destruct r as [[]|[]| |[] m e]; cbn in *; congruence. }
  set (s := fold_left scallStep (request ff sf w o n r c) (newSetup host)).
  assert (Es : s = Su ff (AFmt r sf w o (mappingOf sf w) n c) true true true true true false false 4 false [(2001, 2)] false []).
  { subst s. unfold request, newSetup. cbn [fold_left]. set (ff0 := match host with BigEndian => F_AIFFC | LittleEndian => F_WAVE end).
    set (f0 := AFmt (dOfZ 44100) TwosComp 16 host (Arrange.signedMapping kInt16) 2 CNone). set (ins := [(2001, 2)]).
    change (scallStep (Su ff0 f0 false false false false false false false 4 false ins false []) (SFileFormat ff)) with (Su ff f0 false false false false false false false 4 false ins false []).
    change (scallStep (Su ff f0 false false false false false false false 4 false ins false []) (SSampleFormat sf w)) with (Su ff (setSF f0 sf w) false true false false false false false 4 false ins false []).
    rewrite setSF_ok by exact Hw. subst f0. cbn [a_rate a_order a_chan a_comp].
    unfold scallStep at 4. cbn [su_fmt su_file su_rateSet su_sfSet su_orderSet su_chanSet su_compSet su_aes su_markSet su_marks su_instSet su_inst su_miscSet su_misc setOrder a_rate a_sf a_width a_order a_pcm a_chan a_comp].
    unfold scallStep at 3. rewrite (proj2 (Z.ltb_ge n 1)) by lia. cbn [su_fmt su_file su_rateSet su_sfSet su_orderSet su_chanSet su_compSet su_aes su_markSet su_marks su_instSet su_inst su_miscSet su_misc setOrder a_rate a_sf a_width a_order a_pcm a_chan a_comp].
    unfold scallStep at 2. rewrite Hz. reflexivity. }
  assert (Hm : made host (request ff sf w o n r c) s).
  { split; [|reflexivity]. intros x Hx. cbn in Hx. destruct Hx as [<-|[<-|[<-|[<-|[<-|[<-|[]]]]]]]; cbn; auto; [lia|]. intros ->. exact Hh. }
  destruct (made_sane _ _ _ Hm) as [Hs Ht].
  assert (Ec : complete host s = (true, AFmt r sf w o (mappingOf sf w) n c)).
  { rewrite Es. clear - Hh Hn Hw Hz.
    destruct c; destruct ff; cbn [linearHolds channelsFit In] in Hh, Hn;
      repeat match goal with H : _ /\ _ |- _ => destruct H | H : _ \/ _ |- _ => destruct H | H : False |- _ => destruct H end; subst; try discriminate;
      unfold complete, rawComplete, aiffComplete, nextComplete, waveComplete, waveSF, ircamComplete, avrComplete, iffComplete, smpComplete, vocComplete, nistComplete, cafComplete,
      wrongOrder, refuseIf, forceOrder, setOrder, isComp, badWidth, inComp, inWidth, isSF, isIntF, rateBad, hasMarks, hasInst, hasMisc, miscOutside; proj; rewrite ?Hz; proj;
      try reflexivity; repeat (proj; match goal with |- context [if ?b then _ else _] => first [replace b with false by lia | replace b with true by lia] end); proj;
      rewrite ?setSF_ok by (cbn; lia); try reflexivity; destruct host; reflexivity. }
  pose proof (complete_completed _ _ _ Hs Ht Ec) as C.
  assert (Hww : a_width (su_fmt s) = w /\ a_chan (su_fmt s) = n /\ a_rate (su_fmt s) = r /\ su_file s = ff /\ a_comp (su_fmt s) = c) by (rewrite Es; cbn [su_fmt su_file a_width a_chan a_rate a_comp]; auto).
  destruct Hww as (E1 & E2 & E3 & E4 & E5).
  unfold openWrite. rewrite Ec. cbn [negb].
  rewrite (writeInit_ok B host s _ Hs Ht C).
  2: { rewrite E1, E2, E3, E4. exact Hr. }
  2: { rewrite E1, E4, E5. intros ->. destruct c; auto; cbn in Hh; try (right; lia); intuition discriminate. }
  cbn [rbind negb].
  assert (Ek : formatOk host (AFmt r sf w o (mappingOf sf w) n c) = Ok true).
  { unfold formatOk. cbn [a_comp a_pcm a_chan]. destruct (mappingOf_num sf w) as (P1 & P2 & P3 & P4). rewrite P1, P2, P3, P4. cbn [orb negb].
    unfold native16, isSF, inWidth, rassert. cbn [a_sf a_width a_order].
    destruct c; cbn in Hh.
    - destruct asserting; reflexivity.
    - destruct Hh as (_ & -> & -> & ->). destruct host; reflexivity.
    - destruct Hh as (_ & -> & -> & ->). destruct host; reflexivity.
    - destruct Hh as (_ & -> & -> & -> & Hn2). replace ((n =? 1) || (n =? 2)) with true by lia. destruct host; reflexivity.
    - destruct Hh as (_ & -> & -> & -> & Hn2). replace ((n =? 1) || (n =? 2)) with true by lia. destruct host; reflexivity.
    - destruct Hh.
    - destruct Hh as (_ & -> & Hw2 & -> & Hn2). cbn. f_equal. lia. }
  rewrite Ek. cbn [rbind negb].
  assert (Hi : initModule (su_file s) (AFmt r sf w o (mappingOf sf w) n c) = Ok tt).
  { rewrite E4. unfold initModule. cbn [a_comp]. destruct ff; try reflexivity. destruct c; try reflexivity; cbn in Hh; intuition discriminate. }
  rewrite Hi. cbn [rbind]. unfold virtualOf, okFormat. rewrite Es. cbn [su_fmt a_rate a_sf a_width a_pcm a_chan a_comp].
  destruct c; try reflexivity. cbn in Hh. destruct Hh as (_ & _ & _ & -> & _). reflexivity.
Qed.
Print Assumptions C49_supported_setup_is_accepted.

(** The hypotheses are met: a stereo 16-bit WAVE file at 44100 Hz, an A-law AIFF-C file, an ALAC file of 20 bits. *)
Example C49_wave_example : canHold LittleEndian F_WAVE TwosComp 16 LittleEndian CNone 2 /\ rateFits F_WAVE (dOfZ 44100) 16 2.
Proof. split; [split; [cbn; lia|cbn; split; [right; left; split; [reflexivity|lia]|reflexivity]]|]. exists 44100. split; [reflexivity|]. change (2 ^ 16) with 65536. change (2 ^ 32) with 4294967296. lia. Qed.
Example C49_aifc_example : canHold LittleEndian F_AIFFC TwosComp 16 LittleEndian CAlaw 1 /\ rateFits F_AIFFC (dOfZ 8000) 16 1.
Proof. split; [split; [cbn; lia|cbn; repeat split; auto 10; lia]|exact I]. Qed.
Example C49_alac_example : canHold BigEndian F_CAF TwosComp 20 BigEndian CALAC 5 /\ rateFits F_CAF (dOfZ 96000) 20 5.
Proof. split; [split; [cbn; lia|cbn; repeat split; auto 10; lia]|exact I]. Qed.

(** The exceptions.  A format that holds mono and stereo accepts three channels; one that holds mono accepts two. *)
Theorem C49_channels_refuted :
  forall B : Build, exists f v f' v',
    openWrite LittleEndian (fold_left scallStep [SFileFormat F_AVR; SChannels 3] (newSetup LittleEndian)) = Ok (Some (f, v)) /\ a_chan f = 3 /\
    ~ channelsFit F_AVR (a_chan f) /\
    openWrite LittleEndian (fold_left scallStep [SFileFormat F_SMP] (newSetup LittleEndian)) = Ok (Some (f', v')) /\ a_chan f' = 2 /\
    ~ channelsFit F_SMP (a_chan f').
Proof.
  intros B. exists (AFmt (dOfZ 44100) TwosComp 16 BigEndian (Arrange.signedMapping kInt16) 3 CNone), (AFmt (dOfZ 44100) TwosComp 16 LittleEndian (Arrange.signedMapping kInt16) 3 CNone),
    (AFmt (dOfZ 44100) TwosComp 16 LittleEndian (Arrange.signedMapping kInt16) 2 CNone), (AFmt (dOfZ 44100) TwosComp 16 LittleEndian (Arrange.signedMapping kInt16) 2 CNone).
  split; [destruct B; vm_compute; reflexivity|]. split; [reflexivity|]. split; [cbn; lia|].
  split; [destruct B; vm_compute; reflexivity|]. split; [reflexivity|]. cbn; lia.
Qed.
Print Assumptions C49_channels_refuted.
(** A sample rate of 2^32 Hz, or a rate that is not a number (afInitRate accepts it), makes the header writer's conversion undefined. *)
Theorem C49_rate_refuted :
  forall B : Build,
    openWrite LittleEndian (fold_left scallStep [SFileFormat F_NEXT; SRate (dOfZ (2 ^ 32))] (newSetup LittleEndian)) = UB /\
    openWrite LittleEndian (fold_left scallStep [SFileFormat F_WAVE; SRate S754_nan] (newSetup LittleEndian)) = UB /\
    openWrite LittleEndian (fold_left scallStep [SFileFormat F_IFF; SRate (dOfZ 96000)] (newSetup LittleEndian)) = UB.
Proof. intros []; repeat split; vm_compute; reflexivity. Qed.
Print Assumptions C49_rate_refuted.
(** A raw file with a codec that needs parameters: there are none, and the open goes on with uninitialised values. *)
Theorem C49_raw_codec_refuted :
  forall (B : Build) c, c = CIMA \/ c = CMSADPCM \/ c = CALAC ->
    openWrite LittleEndian (fold_left scallStep [SFileFormat F_RAW; SCompression c] (newSetup LittleEndian)) = UB.
Proof. intros [] c [->|[->| ->]]; vm_compute; reflexivity. Qed.
Print Assumptions C49_raw_codec_refuted.
(** 8-bit samples with G.711 in a NIST file: the assertion in the header writer stops the program (in a build with assertions). *)
Theorem C49_nist_g711_abort_refuted :
  @openWrite true LittleEndian (fold_left scallStep [SFileFormat F_NIST; SSampleFormat TwosComp 8; SCompression CUlaw] (newSetup LittleEndian)) = Abort.
Proof. vm_compute. reflexivity. Qed.
Print Assumptions C49_nist_g711_abort_refuted.

(** ** C62: an accepted setup is honoured *)

(** The number of channels (unless a mono format is opened without asking for any), rate and compression are the setup's; the sample
    width is the one asked for; the sample format too, except that WAVE and NeXT replace a signedness they do not have; and so is the byte
    order of linear samples wider than a byte, except in a SampleVision file. *)
Theorem C62_accepted_setup_is_honoured :
  forall (B : Build) host calls s f v, made host calls s -> openWrite host s = Ok (Some (f, v)) ->
    (a_chan f = a_chan (su_fmt s) \/ su_file s = F_IFF /\ su_chanSet s = false /\ a_chan f = 1) /\
    a_rate f = a_rate (su_fmt s) /\ a_comp f = a_comp (su_fmt s) /\
    (su_sfSet s = true -> a_width f = a_width (su_fmt s)) /\
    (a_sf f = a_sf (su_fmt s) \/ su_file s = F_WAVE /\ a_comp f = CNone /\ (a_sf (su_fmt s) = Unsigned \/ a_sf (su_fmt s) = TwosComp) \/
     su_file s = F_NEXT /\ a_sf (su_fmt s) = Unsigned) /\
    (a_comp f = CNone -> su_orderSet s = true -> 8 < a_width f -> su_file s <> F_SMP -> a_order f = a_order (su_fmt s)).
Proof.
  intros B host calls s f v Hm Ho. destruct (made_sane _ _ _ Hm) as [Hs Ht]. unfold openWrite in Ho.
  destruct (complete host s) as [ok g] eqn:Ec. destruct ok; cbn [negb] in Ho; [|discriminate].
  pose proof (complete_completed _ _ _ Hs Ht Ec) as C.
  apply rbind_Ok in Ho. destruct Ho as (w & _ & Ho). destruct w; cbn [negb] in Ho; [|discriminate].
  apply rbind_Ok in Ho. destruct Ho as (k & _ & Ho). destruct k; cbn [negb] in Ho; [|discriminate].
  apply rbind_Ok in Ho. destruct Ho as (u & _ & Ho).
  assert (Ef : f = okFormat host g) by congruence. clear Ho.
  assert (P : a_chan f = a_chan g /\ a_rate f = a_rate g /\ a_comp f = a_comp g /\ a_width f = a_width g /\ a_sf f = a_sf g /\ (a_comp g = CNone -> a_order f = a_order g)).
  { subst f. unfold okFormat. destruct (a_comp g) eqn:Eg; cbn [setOrder a_chan a_rate a_comp a_width a_sf a_order]; repeat split; auto; congruence. }
  destruct P as (P1 & P2 & P3 & P4 & P5 & P6). destruct (cp_keep _ _ _ C) as [Kc Kr].
  split; [|split; [congruence|split; [congruence|split; [|split]]]].
  - rewrite P1. destruct (cp_chan _ _ _ C) as [E|[E1 E2]]; [left; exact E|right; split; [exact E1|split; [exact E2|exact (cp_one _ _ _ C E1)]]].
  - intros E. rewrite P4. exact (cp_set _ _ _ C E).
  - rewrite P5. destruct (cp_sf _ _ _ C) as [E|[(E1 & E2 & E3)|(E1 & E2 & E3)]]; [auto| |auto]. right. left. split; [exact E1|]. split; [|tauto].
    unfold isComp in E2. rewrite P3. destruct (a_comp g); try discriminate; reflexivity.
  - intros E1 E2 E3 E4. rewrite P3 in E1. rewrite (P6 E1). rewrite P4 in E3. destruct (cp_order _ _ _ C) as [E|E]; auto; [unfold isComp; rewrite E1; reflexivity|congruence].
Qed.
Print Assumptions C62_accepted_setup_is_honoured.

(** Markers, instruments, miscellaneous chunks and AES data are never dropped because the file format has no place for them: a setup
    that asks for them is refused.  (WAVE keeps no instrument, see C46; and what AIFF and WAVE store of the rest is C36 and C35.) *)
Theorem C62_metadata_has_a_place :
  forall (B : Build) host calls s f v, made host calls s -> openWrite host s = Ok (Some (f, v)) ->
    (su_aes s = true -> In (su_file s) [F_AIFF; F_AIFFC]) /\
    (su_markSet s = true -> su_marks s <> 0 -> In (su_file s) [F_AIFF; F_AIFFC; F_WAVE]) /\
    (su_instSet s = true -> su_inst s <> [] -> In (su_file s) [F_AIFF; F_AIFFC; F_WAVE] /\ zlen (su_inst s) = 1) /\
    (su_miscSet s = true -> su_misc s <> [] -> In (su_file s) [F_AIFF; F_AIFFC; F_WAVE; F_IFF] /\
      (su_file s = F_WAVE -> forall m, In m (su_misc s) -> In (snd m) [201; 202; 203; 210; 211; 212]) /\
      (su_file s = F_AIFF \/ su_file s = F_AIFFC -> forall m, In m (su_misc s) -> In (snd m) [201; 202; 203; 204; 205; 206])).
Proof.
  intros B host calls s f v _ Ho. unfold openWrite in Ho. destruct (complete host s) as [ok g] eqn:Ec. destruct ok; cbn [negb] in Ho; [|discriminate]. clear Ho.
  assert (N : forall x, refuseIf true x (true, x) <> (true, g)) by (intros x H; discriminate H).
  assert (Ht : forall b (k : outcome) x, refuseIf b x k = (true, g) -> b = false /\ k = (true, g)) by (intros [] k x H; [discriminate H|split; [reflexivity|exact H]]).
  assert (M1 : hasMarks s = false -> su_markSet s = true -> su_marks s <> 0 -> False) by (unfold hasMarks; intros A1 A2 A3; rewrite A2 in A1; cbn [andb] in A1; apply A3; lia).
  assert (M2 : hasInst s = false -> su_instSet s = true -> su_inst s <> [] -> False).
  { unfold hasInst; intros A1 A2 A3; rewrite A2 in A1; cbn [andb] in A1; apply A3. destruct (su_inst s) as [|x l]; [reflexivity|]. rewrite zlen_cons in A1. pose proof (zlen_nonneg l). lia. }
  assert (M3 : hasMisc s = false -> su_miscSet s = true -> su_misc s <> [] -> False).
  { unfold hasMisc; intros A1 A2 A3; rewrite A2 in A1; cbn [andb] in A1; apply A3. destruct (su_misc s) as [|x l]; [reflexivity|]. rewrite zlen_cons in A1. pose proof (zlen_nonneg l). lia. }
  assert (M4 : su_instSet s && (1 <? zlen (su_inst s)) = false -> su_instSet s = true -> su_inst s <> [] -> zlen (su_inst s) = 1).
  { intros A1 A2 A3. rewrite A2 in A1. cbn [andb] in A1. destruct (su_inst s) as [|x l]; [congruence|]. rewrite zlen_cons in *. pose proof (zlen_nonneg l). lia. }
  assert (M5 : forall l, miscOutside s l = false -> su_miscSet s = true -> forall m, In m (su_misc s) -> In (snd m) l).
  { intros l A1 A2 m Hm. unfold miscOutside in A1. rewrite A2 in A1. cbn [andb] in A1. apply negb_false_iff in A1. rewrite forallb_forall in A1. specialize (A1 m Hm).
    apply existsb_exists in A1. destruct A1 as (z & Hz & Ez). apply Z.eqb_eq in Ez. rewrite Ez. exact Hz. }
  unfold complete in Ec. destruct (su_file s) eqn:Ef; unfold rawComplete, aiffComplete, nextComplete, waveComplete, ircamComplete, avrComplete, iffComplete, smpComplete, vocComplete, nistComplete, cafComplete in Ec; cbv zeta in Ec;
    try (destruct (waveSF s (su_fmt s)) as [ok h] eqn:Ew);
    repeat (match type of Ec with refuseIf _ _ _ = _ => apply Ht in Ec; let E := fresh "R" in destruct Ec as [E Ec] end);
    repeat (match goal with H : _ || _ = false |- _ => apply orb_false_iff in H; let A := fresh "R" in let C := fresh "R" in destruct H as [A C] end);
    (split; [intros A|split; [intros A A'|split; [intros A A'|intros A A']]]);
    try congruence; try (exfalso; solve [eauto]); cbn [In]; try tauto;
    try (split; [tauto|]); try (apply M4; assumption); try (split; intros E; (try (destruct E; discriminate)); try discriminate E; match goal with H : miscOutside s _ = false |- _ => exact (M5 _ H A) end).
Qed.
Print Assumptions C62_metadata_has_a_place.
Example C62_metadata_has_a_place_satisfiable :
  let s := fold_left scallStep [SFileFormat F_AIFF; SSampleFormat TwosComp 16; SChannels 2; SMarkIDs 3] (newSetup LittleEndian) in
  su_markSet s = true /\ su_marks s = 3 /\ (exists r, openWrite (B := Debug) LittleEndian s = Ok (Some r)) /\
  openWrite (B := Debug) LittleEndian (scallStep s (SFileFormat F_CAF)) = Ok None.
Proof. vm_compute. repeat split; eauto. Qed.

(** The program writes frames of the setup's sample format at full scale: the virtual format is the setup's sample format with its own
    mapping, and so is the file's -- as long as the program did not give its own mapping. *)
Definition ownMapping (c : scall) : bool := match c with SPCMMapping _ => true | _ => false end.
Definition fullScale (f : aformat) : Prop := a_pcm f = mappingOf (a_sf f) (a_width f).
Lemma fullScale_run calls : forall s, existsb ownMapping calls = false -> fullScale (su_fmt s) -> fullScale (su_fmt (fold_left scallStep calls s)).
Proof.
  unfold fullScale. induction calls as [|c calls IH]; intros s Hc H; cbn [fold_left]; [exact H|].
  cbn [existsb] in Hc. apply orb_false_iff in Hc. destruct Hc as [Hc1 Hc2]. apply (IH _ Hc2).
  destruct c; cbn [scallStep]; try discriminate Hc1; try exact H.
  - destruct (n <? 1); exact H.
  - cbn [su_fmt]. unfold setSF. destruct (widthAndPCM sf w) as [[w' m]|] eqn:E; [|exact H]. apply (widthAndPCM_inv _ _ _ _ E).
  - destruct (SFleb r (dOfZ 0)); exact H.
  - destruct (n <? 0); exact H.
  - destruct (negb (distinct ids)); exact H.
  - destruct (negb (distinct ids)); exact H.
Qed.
Theorem C62_frames_are_full_scale_partial :
  forall (B : Build) host calls s f v, made host calls s -> existsb ownMapping calls = false ->
    (su_file s = F_IFF -> su_sfSet s = true) ->
    openWrite host s = Ok (Some (f, v)) ->
    a_sf v = a_sf (su_fmt s) /\ a_width v = a_width (su_fmt s) /\ a_width v = a_width f /\ a_chan v = a_chan f /\ a_comp v = CNone /\ a_order v = host /\
    fullScale v /\ fullScale f.
Proof.
  intros B host calls s f v Hm Hown Hiff Ho. destruct (made_sane _ _ _ Hm) as [Hs Ht]. unfold openWrite in Ho.
  assert (FS : fullScale (su_fmt s)) by (destruct Hm as [_ <-]; apply fullScale_run; [exact Hown|reflexivity]).
  destruct (complete host s) as [ok g] eqn:Ec. destruct ok; cbn [negb] in Ho; [|discriminate].
  pose proof (complete_completed _ _ _ Hs Ht Ec) as C.
  apply rbind_Ok in Ho. destruct Ho as (w & _ & Ho). destruct w; cbn [negb] in Ho; [|discriminate].
  apply rbind_Ok in Ho. destruct Ho as (k & _ & Ho). destruct k; cbn [negb] in Ho; [|discriminate].
  apply rbind_Ok in Ho. destruct Ho as (u & _ & Ho).
  assert (Ef : f = okFormat host g) by congruence. assert (Ev : v = virtualOf host (su_fmt s) g) by congruence. clear Ho.
  assert (W : a_width g = a_width (su_fmt s)).
  { destruct (su_sfSet s) eqn:Es; [exact (cp_set _ _ _ C Es)|]. destruct (sn_sf _ _ Hs Es) as [_ ->]. destruct (cp_unset _ _ _ C Es) as [E|E]; [exact E|].
    specialize (Hiff E). congruence. }
  assert (P : a_width f = a_width g /\ a_chan f = a_chan g /\ a_sf f = a_sf g /\ a_pcm f = a_pcm g) by (subst f; unfold okFormat; destruct (a_comp g); cbn [setOrder a_width a_chan a_sf a_pcm]; auto).
  destruct P as (P1 & P2 & P3 & P4). subst v. unfold virtualOf, fullScale. cbn [a_sf a_width a_chan a_comp a_order a_pcm].
  rewrite P1, P2, P3, P4, W. repeat split; auto. rewrite <- W. exact (cp_map _ _ _ C FS).
Qed.
Print Assumptions C62_frames_are_full_scale_partial.

(** When the file keeps the sample format, the converters leave signed integer and floating-point samples as they are. *)
Definition arr (f : aformat) : Arrange.format := Arrange.Build_format (toA (a_sf f)) (a_width f) (a_chan f) (a_order f) false (a_pcm f).
Theorem C62_frames_pass_unchanged :
  forall (B : Build) host calls s f v frame, made host calls s -> existsb ownMapping calls = false ->
    (su_file s = F_IFF -> su_sfSet s = true) ->
    openWrite host s = Ok (Some (f, v)) -> a_comp f = CNone -> a_sf f = a_sf (su_fmt s) -> a_sf f <> Unsigned ->
    exists ms, Arrange.arrange false host false (arr v) (arr f) None = Ok (Some ms) /\ Arrange.runChain ms frame = Ok frame.
Proof.
  intros B host calls s f v frame Hm Hown Hiff Ho Hc Hsf Hu.
  destruct (C62_frames_are_full_scale_partial B host calls s f v Hm Hown Hiff Ho) as (V1 & V2 & V3 & V4 & V5 & V6 & V7 & V8).
  destruct (made_sane _ _ _ Hm) as [Hs _]. pose proof (sn_width _ _ Hs) as Hw. rewrite <- Hsf, <- V2, V3 in Hw.
  assert (VS : a_sf v = a_sf f) by congruence. clear - V3 V4 V6 V7 V8 VS Hu Hw.
  assert (ID : forall a fr, (forall s, Arrange.run1 a s = Ok s) -> rmapM (Arrange.run1 a) fr = Ok fr).
  { intros a fr Ha. induction fr as [|x fr IH]; cbn; [reflexivity|]. rewrite Ha. cbn. rewrite IH. reflexivity. }
  assert (G : forall c m, Arrange.getFormatCode (arr v) = Some c -> Arrange.getFormatCode (arr f) = Some c ->
     Arrange.arrangeCore false false false c c m m [] = Ok [] -> a_pcm v = m -> a_pcm f = m ->
     exists ms, Arrange.arrange false host false (arr v) (arr f) None = Ok (Some ms) /\ Arrange.runChain ms frame = Ok frame).
  { intros c m G1 G2 G3 M1 M2. unfold Arrange.arrange. rewrite G1, G2.
    assert (U1 : Arrange.isUnsigned (arr v) = false) by (unfold arr, Arrange.isUnsigned; cbn [Arrange.sampleFormat]; rewrite VS; destruct (a_sf f); try congruence; reflexivity).
    assert (U2 : Arrange.isUnsigned (arr f) = false) by (unfold arr, Arrange.isUnsigned; cbn [Arrange.sampleFormat]; destruct (a_sf f); try congruence; reflexivity).
    rewrite U1, U2. replace (Arrange.channelCount (arr v) =? Arrange.channelCount (arr f)) with true by (cbn; lia). cbn [negb].
    cbn [Arrange.when]. replace (Arrange.pcm (arr v)) with m by (cbn; congruence). replace (Arrange.pcm (arr f)) with m by (cbn; congruence).
    rewrite G3. cbn [rbind app]. eexists. split; [reflexivity|].
    repeat (match goal with |- context [Arrange.when ?b _] => destruct b end; cbn [Arrange.when]); cbn [Arrange.when app Arrange.runChain Arrange.runModule rbind];
      repeat (rewrite ID by (intros []; reflexivity); cbn [rbind]); reflexivity. }
  unfold fullScale in V7, V8. rewrite VS, V3 in V7.
  destruct (a_sf f) eqn:Esf; cbn [widthOk] in Hw; try congruence.
  - set (c := if a_width f <=? 8 then kInt8 else if a_width f <=? 16 then kInt16 else if a_width f <=? 24 then kInt24 else kInt32).
    assert (Q : forall g, a_sf g = TwosComp -> a_width g = a_width f -> Arrange.getFormatCode (arr g) = Some (Arrange.kI c)).
    { intros g Q1 Q2. unfold Arrange.getFormatCode, arr, Arrange.bytesPerSample. cbn [Arrange.sampleFormat Arrange.sampleWidth Arrange.compressed]. rewrite Q1, Q2. cbn [toA].
      rewrite Z.quot_div_nonneg by lia. rewrite andb_false_r. subst c.
      destruct (Z.leb_spec (a_width f) 8); [replace ((a_width f + 7) / 8) with 1 by lia; reflexivity|].
      destruct (Z.leb_spec (a_width f) 16); [replace ((a_width f + 7) / 8) with 2 by lia; reflexivity|].
      destruct (Z.leb_spec (a_width f) 24); [replace ((a_width f + 7) / 8) with 3 by lia; reflexivity|].
      replace ((a_width f + 7) / 8) with 4 by lia. reflexivity. }
    apply (G (Arrange.kI c) (Arrange.signedMapping c)); [apply Q; congruence|apply Q; congruence| |rewrite V7; reflexivity|rewrite V8; reflexivity].
    clearbody c. destruct c; vm_compute; reflexivity.
  - apply (G Arrange.kFloat Arrange.floatMapping); [unfold Arrange.getFormatCode, arr; cbn [Arrange.sampleFormat]; rewrite VS; reflexivity
      |unfold Arrange.getFormatCode, arr; cbn [Arrange.sampleFormat]; rewrite Esf; reflexivity|vm_compute; reflexivity|rewrite V7; reflexivity|rewrite V8; reflexivity].
  - apply (G Arrange.kDouble Arrange.floatMapping); [unfold Arrange.getFormatCode, arr; cbn [Arrange.sampleFormat]; rewrite VS; reflexivity
      |unfold Arrange.getFormatCode, arr; cbn [Arrange.sampleFormat]; rewrite Esf; reflexivity|vm_compute; reflexivity|rewrite V7; reflexivity|rewrite V8; reflexivity].
Qed.
Print Assumptions C62_frames_pass_unchanged.

(** An IFF/8SVX file opened without a sample format takes 8-bit frames but maps and clips them as if they had 16 bits: the clip
    limits do not fit the samples' type, and converting them is undefined. *)
Theorem C62_iff_default_refuted :
  forall B : Build, exists f v ms,
    openWrite LittleEndian (fold_left scallStep [SFileFormat F_IFF] (newSetup LittleEndian)) = Ok (Some (f, v)) /\
    a_sf v = TwosComp /\ a_width v = 8 /\ a_sf f = TwosComp /\ a_width f = 8 /\
    Arrange.arrange false LittleEndian false (arr v) (arr f) None = Ok (Some ms) /\
    Arrange.runChain ms [Arrange.SI kInt8 100] = UB.
Proof.
  intros B. set (f := AFmt (dOfZ 44100) TwosComp 8 BigEndian (Arrange.signedMapping kInt8) 1 CNone).
  set (v := AFmt (dOfZ 44100) TwosComp 8 LittleEndian (Arrange.signedMapping kInt16) 1 CNone).
  exists f, v, (match Arrange.arrange false LittleEndian false (arr v) (arr f) None with Ok (Some ms) => ms | _ => [] end).
  split; [destruct B; vm_compute; reflexivity|]. split; [reflexivity|]. split; [reflexivity|]. split; [reflexivity|]. split; [reflexivity|].
  split; vm_compute; reflexivity.
Qed.
Print Assumptions C62_iff_default_refuted.

(** A setup that meets the hypotheses: 24-bit stereo AIFF. *)
Example C62_example : forall B : Build, exists s f v,
  made LittleEndian [SFileFormat F_AIFF; SSampleFormat TwosComp 24] s /\ existsb ownMapping [SFileFormat F_AIFF; SSampleFormat TwosComp 24] = false /\
  openWrite LittleEndian s = Ok (Some (f, v)) /\ a_comp f = CNone /\ a_sf f = a_sf (su_fmt s) /\ a_sf f <> Unsigned.
Proof.
  intros B. exists (fold_left scallStep [SFileFormat F_AIFF; SSampleFormat TwosComp 24] (newSetup LittleEndian)),
    (AFmt (dOfZ 44100) TwosComp 24 BigEndian (Arrange.signedMapping kInt24) 2 CNone), (AFmt (dOfZ 44100) TwosComp 24 LittleEndian (Arrange.signedMapping kInt24) 2 CNone).
  split; [split; [intros c [<-|[<-|[]]]; exact I|reflexivity]|]. split; [reflexivity|]. split; [destruct B; vm_compute; reflexivity|].
  split; [reflexivity|]. split; [reflexivity|discriminate].
Qed.

(** ** C63: a setup can be used again *)

(** Opening a file changes the caller's setup.  Opening a second file of the same file format with it gives the same file format again. *)
Theorem C63_reuse_for_the_same_format_partial :
  forall (B : Build) host calls s f v, made host calls s -> openWrite host s = Ok (Some (f, v)) ->
    exists v', openWrite host (afterOpen host s) = Ok (Some (f, v')) /\ a_width v' = a_width v /\ a_chan v' = a_chan v /\
      (a_sf f = a_sf (su_fmt s) -> su_file s <> F_IFF -> existsb ownMapping calls = false -> v' = v).
Proof.
  intros B host calls s f v Hm Ho. destruct (made_sane _ _ _ Hm) as [Hs Ht]. unfold openWrite in *.
  destruct (complete host s) as [ok g] eqn:Ec. destruct ok; cbn [negb] in Ho; [|discriminate].
  pose proof (complete_completed _ _ _ Hs Ht Ec) as C.
  assert (I : complete host (afterOpen host s) = (true, g)) by exact (complete_again host s g Hs Ht Ec).
  rewrite I. cbn [negb]. replace (su_file (afterOpen host s)) with (su_file s) by reflexivity.
  apply rbind_Ok in Ho. destruct Ho as (w & Ew & Ho). destruct w; cbn [negb] in Ho; [|discriminate].
  apply rbind_Ok in Ho. destruct Ho as (k & Ek & Ho). destruct k; cbn [negb] in Ho; [|discriminate].
  apply rbind_Ok in Ho. destruct Ho as (u & Eu & Ho). rewrite Ew. cbn [rbind negb]. rewrite Ek. cbn [rbind negb]. rewrite Eu. cbn [rbind].
  exists (virtualOf host (su_fmt (afterOpen host s)) g). split; [congruence|].
  assert (Ev : v = virtualOf host (su_fmt s) g) by congruence. subst v. split; [reflexivity|]. split; [reflexivity|].
  intros Hsf Hiff Hown. assert (FS : fullScale (su_fmt s)) by (destruct Hm as [_ <-]; apply fullScale_run; [exact Hown|reflexivity]).
  assert (Ef : f = okFormat host g) by congruence. unfold afterOpen. rewrite Ec. cbn [snd withFmt su_fmt]. unfold virtualOf.
  assert (P3 : a_sf f = a_sf g) by (subst f; unfold okFormat; destruct (a_comp g); reflexivity).
  destruct (cp_keep _ _ _ C) as [_ ->]. rewrite <- P3, Hsf. f_equal.
  assert (W : a_width g = a_width (su_fmt s)).
  { destruct (su_sfSet s) eqn:Es; [exact (cp_set _ _ _ C Es)|]. destruct (sn_sf _ _ Hs Es) as [_ ->]. destruct (cp_unset _ _ _ C Es) as [E|E]; [exact E|congruence]. }
  rewrite (cp_map _ _ _ C FS), <- P3, Hsf, W. symmetry. exact FS.
Qed.
Print Assumptions C63_reuse_for_the_same_format_partial.

(** A second file of another format: a setup with which an IFF/8SVX file was opened no longer makes a 16-bit VOC file; its header writer's
    assertion stops the program, where a fresh setup with the same calls gives a file. *)
Theorem C63_reuse_for_another_format_refuted :
  let s := fold_left scallStep [SFileFormat F_IFF] (newSetup LittleEndian) in
  let s' := afterOpen LittleEndian s in
  (exists f v, @openWrite true LittleEndian (scallStep s (SFileFormat F_VOC)) = Ok (Some (f, v))) /\
  @openWrite true LittleEndian (scallStep s' (SFileFormat F_VOC)) = Abort.
Proof.
  cbv zeta. split; [|vm_compute; reflexivity].
  exists (AFmt (dOfZ 44100) TwosComp 16 LittleEndian (Arrange.signedMapping kInt16) 2 CNone), (AFmt (dOfZ 44100) TwosComp 16 LittleEndian (Arrange.signedMapping kInt16) 2 CNone).
  vm_compute. reflexivity.
Qed.
Print Assumptions C63_reuse_for_another_format_refuted.
(** And a SampleVision file, which holds 16-bit samples, is opened with 8. *)
Theorem C63_reuse_samplevision_refuted :
  forall B : Build,
  let s' := afterOpen LittleEndian (fold_left scallStep [SFileFormat F_IFF] (newSetup LittleEndian)) in
  exists f v, openWrite LittleEndian (scallStep s' (SFileFormat F_SMP)) = Ok (Some (f, v)) /\ a_width f = 8.
Proof.
  intros B. cbv zeta.
  exists (AFmt (dOfZ 44100) TwosComp 8 LittleEndian (Arrange.signedMapping kInt8) 1 CNone), (AFmt (dOfZ 44100) TwosComp 8 LittleEndian (Arrange.signedMapping kInt8) 1 CNone).
  split; [destruct B; vm_compute; reflexivity|reflexivity].
Qed.
Print Assumptions C63_reuse_samplevision_refuted.
