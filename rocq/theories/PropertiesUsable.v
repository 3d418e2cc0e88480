(** * C60: a file that opens has a usable format

    Whatever bytes a file consists of, when the library opens it, the track has at least one channel, a sample width that
    suits its sample format, packets that are not empty, and the audio data does not start before the file does. *)
From Verif Require Import Prelude PreludeFacts ByteOrder FileIO Codecs HeaderIO Chunks Yields.
From Verif Require NeXT AVR AIFF IFF IRCAM VOC SampleVision CAF NIST WAVE.

Definition widthFits (sf : sampfmt) (w : Z) : Prop :=
  match sf with TwosComp | Unsigned => 1 <= w <= 32 | Float => w = 32 | Double => w = 64 end.
Record usable {R} (f : formatOf R) : Prop := {
  u_channels : 1 <= f_chan f;
  u_width : widthFits (f_sf f) (f_width f);
  u_frames : 1 <= f_fpp f;
  u_pcm : f_comp f = CNone -> f_fpp f = 1 /\ f_bpp f = (f_width f + 7) / 8 * f_chan f;
  u_coded : f_comp f <> CNone -> f_sf f = TwosComp /\ (f_comp f <> CALAC -> f_width f = 16);
  u_blocks : f_comp f = CIMA \/ f_comp f = CMSADPCM -> 1 <= f_bpp f }.
Definition opensUsable {R} (p : hP (parsedOf R)) : Prop :=
  forall b x f', bytes_ok b = true -> p (mkFile b 0) = Ok (Some (x, f')) -> usable (p_fmt x) /\ 0 <= p_first x.

Lemma usable_pcm {R} (rate : R) sf w ch o x : widthFits sf w -> 1 <= ch -> bppPCM w ch = Ok x -> usable (mkFmt rate sf w ch o CNone 1 x).
Proof.
  intros Hw Hc H. apply bppPCM_val in H. destruct H as [-> H]. change (2 ^ 31) with 2147483648 in H.
  assert (W : 1 <= w) by (destruct sf; cbn [widthFits] in Hw; lia).
  assert (Q : Z.quot (w + 7) 8 = (w + 7) / 8) by (apply Z.quot_div_nonneg; lia). rewrite Q in *.
  assert (1 <= (w + 7) / 8) by lia. assert (1 <= (w + 7) / 8 * ch) by nia.
  assert (E : u64 ((w + 7) / 8 * ch) = (w + 7) / 8 * ch) by (unfold u64; apply uN_small; change (2 ^ 64) with 18446744073709551616; lia).
  constructor; cbn [f_chan f_sf f_width f_fpp f_bpp f_comp]; rewrite ?E; try lia; [exact Hw|]. intros K. now destruct K.
Qed.
Lemma usable_coded {R} (rate : R) ch o c fpp bpp : 1 <= ch -> c <> CNone -> 1 <= fpp -> 1 <= bpp -> usable (mkFmt rate TwosComp 16 ch o c fpp bpp).
Proof. intros. constructor; cbn [f_chan f_sf f_width f_fpp f_bpp f_comp widthFits]; try lia; [congruence|auto]. Qed.
Lemma usable_g711 {R} (rate : R) ch o c bpp : 1 <= ch -> c = CUlaw \/ c = CAlaw -> usable (mkFmt rate TwosComp 16 ch o c 1 bpp).
Proof. intros H [->| ->]; (constructor; cbn [f_chan f_sf f_width f_fpp f_bpp f_comp widthFits]; [lia|lia|lia|discriminate|auto|intros [K|K]; discriminate]). Qed.

Ltac y_step Hb :=
  match goal with
  | |- yields _ (hbind (hseek _) _) _ => eapply y_bind; [apply y_seek; try lia|intros ? _]
  | |- yields _ (hbind (hskip _) _) _ => eapply y_bind; [apply y_skip; try lia|intros ? _]
  | |- yields _ (hbind (hread _) _) _ => eapply y_bind; [apply (y_read _ Hb)|intros ? _]
  | |- yields _ (hbind (readU _ _) _) _ => eapply y_bind; [apply (y_readU _ Hb)|intros ? ?]
  | |- yields _ (hbind (needU _ _) _) _ => eapply y_bind; [apply (y_needU _ Hb)|intros ? ?]
  | |- yields _ (hbind (readU0 _ _) _) _ => eapply y_bind; [apply (y_readU0 _ Hb)|intros ? ?]
  | |- yields _ (hbind (tryU _ _) _) _ => eapply y_bind; [apply (y_tryU _ Hb)|intros ? ?]
  | |- yields _ (hbind readTag _) _ => eapply y_bind; [apply y_readTag|intros ? _]
  | |- yields _ (hbind htell _) _ => eapply y_bind; [apply y_tell|intros ? ?]
  | |- yields _ (hbind hlength _) _ => eapply y_bind; [apply y_length|intros ? ?]
  | |- yields _ (hbind (hassert _) _) _ => eapply y_bind; [apply y_assert|intros ? _]
  | |- yields _ (hbind (hret _) _) _ => eapply y_bind; [apply (y_ret _ _ (fun _ => True)); exact I|intros ? _]
  | |- yields _ (hbind (hlift _) _) _ => let K := fresh "K" in eapply y_bind; [apply y_lift; intros ? K; exact K|intros ? ?]
  | |- yields _ hfail _ => apply y_fail
  | |- yields _ (fun _ => UB) _ => apply y_ub
  | |- yields _ (fun _ => Abort) _ => apply y_abort
  | |- yields _ (fun _ => OutOfFuel) _ => apply y_fuel
  | |- yields _ (if ?c then _ else _) _ => destruct c eqn:?
  end; cbv beta zeta in *.
Ltac y_all Hb := repeat y_step Hb.
(** From [yields] to the statement. *)
Lemma opens_from {R} (p : hP (parsedOf R)) :
  (forall b, bytes_ok b = true -> yields b p (fun x => usable (p_fmt x) /\ 0 <= p_first x)) -> opensUsable p.
Proof. intros H b x f' Hb E. destruct (H b Hb 0 x f' ltac:(lia) E) as [U _]. exact U. Qed.

(** ** AVR *)
Theorem C60_avr_usable : opensUsable AVR.avrRead.
Proof.
  apply opens_from. intros b Hb. unfold AVR.avrRead, AVR.avrTail. y_all Hb. apply y_ret. cbn [p_fmt p_first]. split; [|assumption].
  clear - H8 Heqb2 Heqb3 Heqb4. apply usable_pcm; [destruct (a4 =? 0); cbn [widthFits]; lia|destruct (a2 =? 0); lia|assumption].
Qed.
Print Assumptions C60_avr_usable.

(** ** IRCAM *)
Theorem C60_ircam_usable : forall host, opensUsable (IRCAM.ircamRead host).
Proof.
  intros host. apply opens_from. intros b Hb. unfold IRCAM.ircamRead, IRCAM.ircamTail. y_all Hb;
  (eapply y_bind; [|intros fm U; y_step Hb; apply y_ret; cbn [p_fmt p_first]; split; [exact U|lia]]); y_all Hb;
  apply y_ret; (apply usable_pcm; [cbn [widthFits]; lia|lia|assumption]) || (apply usable_coded; [lia|discriminate|lia|lia]).
Qed.
Print Assumptions C60_ircam_usable.

(** ** Sample Vision *)
Theorem C60_samplevision_usable :
  forall b x f', bytes_ok b = true -> SampleVision.smpRead (mkFile b 0) = Ok (Some (x, f')) -> usable (p_fmt (fst x)) /\ 0 <= p_first (fst x).
Proof.
  intros b x f' Hb E.
  assert (Y : yields b SampleVision.smpRead (fun x => usable (p_fmt (fst x)) /\ 0 <= p_first (fst x))).
  { assert (T : forall n t, yields b (SampleVision.smpText n t) (fun _ => True)) by (intros n t; unfold SampleVision.smpText; y_all Hb; apply y_ret; exact I).
    assert (R : forall n p, yields b p (fun _ => True) -> yields b (SampleVision.hrepeat n p) (fun _ => True)).
    { induction n; intros p Hp; cbn [SampleVision.hrepeat]; [apply y_ret; exact I|]. eapply y_bind; [exact Hp|intros; apply IHn; exact Hp]. }
    unfold SampleVision.smpRead. y_all Hb. eapply y_bind; [apply T|intros ? _]. eapply y_bind; [apply T|intros ? _].
    eapply y_bind; [|intros y U; apply y_ret; exact U]. unfold SampleVision.smpTail. y_all Hb.
    - unfold u32, uN. apply Z.mod_pos_bound. reflexivity.
    - eapply y_bind; [apply R; unfold SampleVision.smpReadLoop; y_all Hb; apply y_ret; exact I|intros ? _].
      eapply y_bind; [apply R; unfold SampleVision.smpReadMarker; y_all Hb; apply y_ret; exact I|intros ? _].
      y_all Hb. apply y_ret. cbn [p_fmt p_first fst]. split; [|assumption]. apply usable_pcm; [cbn; lia|lia|reflexivity]. }
  exact (proj1 (Y 0 x f' ltac:(lia) E)).
Qed.
Print Assumptions C60_samplevision_usable.

(** ** IFF/8SVX *)
Theorem C60_iff_usable : forall fuel, opensUsable (IFF.iffOpen fuel).
Proof.
  intros fuel. apply opens_from. intros b Hb.
  set (P := fun s => (forall f, IFF.is_fmt s = Some f -> usable f) /\ 0 <= IFF.is_first s).
  unfold IFF.iffOpen. apply (y_bind _ _ _ P).
  2:{ intros s [U F]. apply y_lift. intros a E. destruct (IFF.is_fmt s) as [f|]; [|discriminate]. injection E as <-. cbn [p_fmt p_first]. auto. }
  unfold IFF.iffRead. y_all Hb. apply (y_chunkLoop b Hb _ u64); [intros x; unfold u64, uN; apply Z.mod_pos_bound; reflexivity| |split; [discriminate|cbn; lia]].
  intros s tag n [U F] Hn. unfold IFF.iffChunk, IFF.parseVHDR, IFF.parseBODY, IFF.iffMisc. y_all Hb.
  - apply y_ret. split; [|exact F]. cbn [IFF.is_fmt]. intros f [= <-]. apply usable_pcm; [cbn; lia|lia|reflexivity].
  - apply y_ret. split; [exact U|assumption].
  - destruct (IFF.iffTagMisc tag); y_all Hb; apply y_ret; split; assumption.
Qed.
Print Assumptions C60_iff_usable.

(** ** VOC *)
Theorem C60_voc_usable : forall host fuel, opensUsable (VOC.vocOpen host fuel).
Proof.
  intros host fuel. apply opens_from. intros b Hb.
  set (P := fun s => (forall f, VOC.vs_fmt s = Some f -> usable f) /\ (forall c r, VOC.vs_ext s = Some (c, r) -> 1 <= c) /\ 0 <= VOC.vs_first s).
  unfold VOC.vocOpen. apply (y_bind _ _ _ P).
  2:{ intros s (U & _ & F). apply y_lift. intros a E. destruct (VOC.vs_fmt s) as [f|]; [|discriminate]. injection E as <-. cbn [p_fmt p_first]. auto. }
  assert (Hbl : forall s t n, P s -> 0 <= n -> yields b (VOC.vocBlock host s t n) P).
  { intros s t n (U & X & F) Hn. unfold VOC.vocBlock. y_all Hb; [| | |apply y_ret; exact (conj U (conj X F))].
    - unfold VOC.vocOld. y_all Hb. destruct (match VOC.vs_ext s with Some e => e | None => _ end) as [ch rate] eqn:Ee. y_all Hb. apply y_ret. split; [|split; [exact X|assumption]].
      cbn [VOC.vs_fmt]. intros f [= <-]. apply usable_pcm; [cbn; lia| |assumption].
      destruct (VOC.vs_ext s) as [[c r]|] eqn:Ex; [injection Ee as <- _; exact (X _ _ eq_refl)|injection Ee as <- _; lia].
    - unfold VOC.vocExt. y_all Hb. apply y_ret. split; [exact U|]. split; [|exact F]. cbn [VOC.vs_ext]. intros c r [= <- _]. destruct (_ =? 0); lia.
    - unfold VOC.vocNew, VOC.vocNewTail. y_all Hb;
      (eapply y_bind; [|intros fm Uf; apply y_ret; split; [cbn [VOC.vs_fmt]; intros f [= <-]; exact Uf|split; [exact X|cbn [VOC.vs_first]; assumption]]]); y_all Hb;
      apply y_ret; (apply usable_pcm; [cbn [widthFits]; lia|lia|assumption]) || (apply usable_coded; [lia|discriminate|lia|lia]). }
  unfold VOC.vocRead. y_all Hb.
  assert (L : forall fuel len pos s, 0 <= pos -> P s -> yields b (VOC.vocLoop host fuel len pos s) P).
  { clear fuel. induction fuel as [|fuel IH]; intros len pos s Hp Hs; cbn [VOC.vocLoop]; y_all Hb; try (now apply y_ret).
    match goal with |- context [match ?x with Some _ => _ | None => _ end] => destruct x as [h|] end; [|now apply y_ret]. assert (0 <= h) by (match goal with H : forall x, _ = Some x -> _ |- _ => destruct (H h eq_refl); assumption end).
    assert (0 <= h / 256) by (apply Z.div_pos; lia).
    eapply y_bind; [apply Hbl; [exact Hs|assumption]|]. intros s' Hs'. cbv zeta. y_all Hb. apply IH; [lia|exact Hs']. }
  apply L; [assumption|]. split; [discriminate|]. split; [discriminate|cbn; lia].
Qed.
Print Assumptions C60_voc_usable.

(** ** AIFF and AIFF-C *)
Theorem C60_aiff_usable : forall (B : Build) aifc host fuel, opensUsable (AIFF.aiffOpen aifc host fuel).
Proof.
  intros B aifc host fuel. apply opens_from. intros b Hb.
  set (P := fun s => (forall f, AIFF.as_fmt s = Some f -> usable f) /\ 0 <= AIFF.as_first s).
  unfold AIFF.aiffOpen. apply (y_bind _ _ _ P).
  2:{ intros s [U F]. apply y_lift. intros a E. unfold AIFF.aiffParsed in E. destruct (AIFF.as_fmt s) as [f|]; [|discriminate]. injection E as <-. cbn [p_fmt p_first]. auto. }
  assert (W : forall s f t, P s -> usable f -> P (AIFF.withFmt s f t)).
  { intros s f t [_ F] U. split; [|exact F]. cbn [AIFF.withFmt AIFF.as_fmt]. intros g [= <-]. exact U. }
  assert (C : forall s rate sf w ch o t, P s -> 1 <= ch -> (sf = Float -> w = 32) -> (sf = Double -> w = 64) -> yields b (AIFF.commPCM s rate sf w ch o t) P).
  { intros s rate sf w ch o t Hs Hc H1 H2. unfold AIFF.commPCM. y_step Hb. unfold AIFF.commDone.
    destruct sf; y_all Hb; apply y_ret; apply W; try exact Hs; (apply usable_pcm; [cbn [widthFits]; lia|lia|]); rewrite ?H1, ?H2 in * by reflexivity; assumption. }
  unfold AIFF.aiffRead. y_all Hb. apply (y_chunkLoop b Hb _ u64); [intros x; unfold u64, uN; apply Z.mod_pos_bound; reflexivity| |split; [discriminate|cbn; lia]].
  intros s tag n Hs Hn. pose proof Hs as [U F]. unfold AIFF.aiffChunk. y_step Hb.
  { unfold AIFF.parseCOMM. y_all Hb; [|apply C; [exact Hs|lia|discriminate|discriminate]].
    eapply (y_bind _ _ _ (fun _ => True)). { unfold AIFF.readPString. y_step Hb. match goal with |- context [match ?x with [] => _ | _ :: _ => _ end] => destruct x as [|? [|? ?]] end; y_all Hb; apply y_ret; exact I. }
    intros name _. unfold AIFF.commAIFC. y_all Hb; try (apply C; [exact Hs|lia|reflexivity || discriminate|reflexivity || discriminate]).
    - unfold AIFF.commDone. y_all Hb. apply y_ret, W; [exact Hs|]. apply usable_g711; [lia|auto].
    - unfold AIFF.commDone. y_all Hb. apply y_ret, W; [exact Hs|]. apply usable_g711; [lia|auto].
    - unfold AIFF.commDone. y_all Hb. apply y_ret, W; [exact Hs|]. apply usable_coded; [lia|discriminate|lia|lia]. }
  assert (M : forall n, yields b (AIFF.parseMarks n) (fun _ => True)).
  { induction n0 as [|k IH]; cbn [AIFF.parseMarks]; [apply y_ret; exact I|]. y_all Hb.
    eapply (y_bind _ _ _ (fun _ => True)); [|intros ? _; eapply y_bind; [exact IH|intros; apply y_ret; exact I]].
    y_all Hb; [apply y_skip; lia|apply y_ret; exact I]. }
  y_step Hb. { y_all Hb. apply y_ret. exact Hs. }
  y_step Hb. { unfold AIFF.parseINST. y_all Hb. apply y_ret. split; assumption. }
  y_step Hb. { unfold AIFF.parseMARK. y_all Hb. eapply y_bind; [apply M|]. intros ms _. apply y_ret. split; assumption. }
  y_step Hb. { unfold AIFF.parseAESD. y_all Hb. apply y_ret. split; assumption. }
  destruct (AIFF.tagMisc tag).
  { unfold AIFF.parseMisc. y_all Hb; apply y_ret; split; assumption. }
  unfold AIFF.parseSSND. y_all Hb; apply y_ret; split; try assumption. cbn [AIFF.as_first]. change (2 ^ (8 * Z.of_nat 4)) with 4294967296 in *. lia.
Qed.
Print Assumptions C60_aiff_usable.

(** ** NIST *)
Lemma nist_coding text c w v c' w' v' s' : NIST.nistReadCoding text c w v = Ok (Some (c', w', v', s')) ->
  c' = c /\ w' = w \/ (c' = CUlaw \/ c' = CAlaw) /\ w' = 16.
Proof.
  unfold NIST.nistReadCoding. destruct (NIST.nistStr _ _ _ _) as [[[v1 s1]|]| | |]; cbn [rbind]; try discriminate; [|intros [= <- <- _ _]; auto].
  destruct (NIST.known s1); cbn [rbind]; try discriminate.
  repeat match goal with |- (if ?c then _ else _) = _ -> _ => destruct c end; intros E; try discriminate E; injection E as <- <- _ _; auto.
Qed.
Lemma nist_sig text c w nb v w' v' : NIST.nistReadSig text c w nb v = Ok (Some (w', v')) -> w' = w \/ c = CNone /\ 1 <= w' /\ Z.quot (w' + 7) 8 = nb.
Proof.
  unfold NIST.nistReadSig. destruct (NIST.nistInt _ _ _) as [[v1|]| | |]; cbn [rbind]; try discriminate; [|intros [= <- _]; auto].
  destruct (NIST.known v1) as [x| | |]; cbn [rbind]; try discriminate. destruct ((x <? 1) || (32 <? x)) eqn:Ex; [discriminate|].
  destruct (compression_eqb c CNone && _) eqn:Ec; intros [= <- _]; [|auto]. right. apply andb_true_iff in Ec. destruct Ec as [Ec Eq]. destruct c; try discriminate. split; [reflexivity|lia].
Qed.
Theorem C60_nist_usable : forall host, opensUsable (NIST.nistRead host).
Proof.
  intros host. apply opens_from. intros b Hb. unfold NIST.nistRead. y_all Hb.
  match goal with H : NIST.nistParse _ ?t = Ok ?r |- _ => rename H into HP; set (text := t) in *; rename r into rr end.
  destruct rr as [[fm count]|]; [|apply y_fail]. y_all Hb. apply y_ret. cbn [p_fmt p_first]. split; [|lia].
  unfold NIST.nistParse in HP.
  destruct (NIST.nistInt text NIST.K_chan None) as [[v|]| | |]; cbn [rbind] in HP; try discriminate HP.
  destruct (NIST.known v) as [ch| | |]; cbn [rbind] in HP; try discriminate HP. destruct (ch <? 1) eqn:Ech; [discriminate HP|].
  destruct (NIST.nistInt text NIST.K_nbytes None) as [[n|]| | |]; cbn [rbind] in HP; try discriminate HP.
  destruct (NIST.known n) as [nb| | |]; cbn [rbind] in HP; try discriminate HP.
  destruct (if nb =? 1 then _ else _) as [[[c w] bpp]| | |] eqn:E3; cbn [rbind] in HP; try discriminate HP.
  destruct (NIST.nistReadCoding text c w v) as [[[[[c' w'] v'] s']|]| | |] eqn:E4; cbn [rbind] in HP; try discriminate HP.
  destruct (NIST.nistReadOrder host text c' w' v' s') as [[[o v2]|]| | |]; cbn [rbind] in HP; try discriminate HP.
  destruct (NIST.nistReadSig text c' w' nb v2) as [[[w2 v3]|]| | |] eqn:E6; cbn [rbind] in HP; try discriminate HP.
  destruct (NIST.nistInt text NIST.K_rate v3) as [[v4|]| | |]; cbn [rbind] in HP; try discriminate HP.
  destruct (NIST.known v4) as [rate| | |]; cbn [rbind] in HP; try discriminate HP. destruct (rate <=? 0) eqn:Er; [discriminate HP|].
  destruct (NIST.nistInt text NIST.K_count v4) as [[v5|]| | |]; cbn [rbind] in HP; try discriminate HP.
  destruct (NIST.known v5) as [cnt| | |]; cbn [rbind] in HP; try discriminate HP. destruct ((w2 <? 1) || (32 <? w2)) eqn:Ew; [discriminate HP|].
  destruct (NIST.known o) as [ord| | |]; cbn [rbind] in HP; try discriminate HP. injection HP as <- _.
  clear - E3 E4 E6 Ech Ew.
  assert (A : c = CUlaw /\ w = 16 \/ c = CNone /\ w = nb * 8 /\ bppPCM (nb * 8) ch = Ok bpp).
  { destruct (nb =? 1); [injection E3 as <- <- _; auto|]. right. unfold ck32 at 1 in E3. destruct (inS 32 (nb * 8)); cbn [rbind] in E3; [|discriminate].
    destruct (bppPCM (nb * 8) ch) as [x| | |]; cbn [rbind] in E3; try discriminate. injection E3 as <- <- <-. auto. }
  apply nist_coding in E4. apply nist_sig in E6.
  destruct E4 as [[-> ->]|[G ->]].
  - destruct A as [[-> ->]|(-> & -> & A)].
    + destruct E6 as [->|(K & _)]; [|discriminate]. apply usable_g711; [lia|auto].
    + apply usable_pcm; [cbn [widthFits]; lia|lia|]. rewrite <- A. unfold bppPCM.
      destruct E6 as [->|(_ & W1 & W2)]; [reflexivity|]. assert (Q : Z.quot (w2 + 7) 8 = (w2 + 7) / 8) by (apply Z.quot_div_nonneg; lia).
      assert (nb = Z.quot (nb * 8 + 7) 8) by (rewrite Z.quot_div_nonneg by lia; lia). rewrite <- H. rewrite W2. reflexivity.
  - destruct E6 as [->|(-> & _)]; [apply usable_g711; [lia|exact G]|]. now destruct G.
Qed.
Print Assumptions C60_nist_usable.

(** ** NeXT/Sun: the channel count is stored in 32 bits and used as an int, so it may come out negative; nothing else can go wrong *)
Theorem C60_next_usable_partial :
  forall (B : Build) host b x f', bytes_ok b = true -> NeXT.nextRead host (mkFile b 0) = Ok (Some (x, f')) ->
    0 <= f_chan (p_fmt x) -> usable (p_fmt x) /\ 0 <= p_first x.
Proof.
  intros B host b x f' Hb E.
  assert (Y : yields b (NeXT.nextRead host) (fun x => 0 <= f_chan (p_fmt x) -> usable (p_fmt x) /\ 0 <= p_first x)).
  { unfold NeXT.nextRead. y_all Hb; apply y_ret; cbn [p_fmt p_first f_chan]; intros HC;
    (match goal with H : 0 <= ?x < 2 ^ (8 * Z.of_nat 4) |- context [s32 ?x] =>
      assert (1 <= s32 x) by (change (2 ^ (8 * Z.of_nat 4)) with 4294967296 in *; unfold s32, sN in *; change (2 ^ 32) with 4294967296 in *; change (2 ^ (32 - 1)) with 2147483648 in *; lia) end);
    (split; [|lia]); (apply usable_pcm; [cbn [widthFits]; lia|lia|assumption]) || (apply usable_g711; [lia|auto]). }
  exact (proj1 (Y 0 x f' ltac:(lia) E)).
Qed.
Print Assumptions C60_next_usable_partial.
Theorem C60_next_channels_refuted :
  forall (B : Build) host, exists b x f', bytes_ok b = true /\ NeXT.nextRead host (mkFile b 0) = Ok (Some (x, f')) /\ f_chan (p_fmt x) = - 2 ^ 31.
Proof.
  intros B host. exists (NeXT.snd_magic ++ be_bytes 4 24 ++ be_bytes 4 0 ++ be_bytes 4 1 ++ be_bytes 4 8000 ++ be_bytes 4 (2 ^ 31)).
  do 2 eexists. split; [reflexivity|]. split; [destruct B; vm_compute; reflexivity|reflexivity].
Qed.
Print Assumptions C60_next_channels_refuted.

(** ** CAF: a channel count of 2^31 or more comes out negative, and the frames per packet of ALAC are not checked *)
Lemma y_needTag b : yields b CAF.needTag (fun _ => True).
Proof.
  intros q a f' Hq E. unfold CAF.needTag, fread in E. cbn [fbytes fpos] in E. destruct (zlen _ =? 4); [|discriminate]. injection E as <- <-. cbn [fbytes fpos].
  split; [exact I|]. split; [reflexivity|]. pose proof (zlen_nonneg (zfirstn 4 (zskipn q b))). lia.
Qed.
Lemma y_lseek b n : yields b (CAF.lseek n) (fun _ => True).
Proof.
  intros q a f' Hq E. unfold CAF.lseek in E. destruct (n <? 0) eqn:En; injection E as <- <-; cbn [fbytes fpos fseek]; repeat split; lia.
Qed.
Lemma ck32_val x y : ck32 x = Ok y -> y = x /\ - 2 ^ 31 <= x < 2 ^ 31.
Proof. unfold ck32. destruct (inS 32 x) eqn:E; [|discriminate]. intros [= <-]. split; [reflexivity|]. unfold inS in E. change (2 ^ (32 - 1)) with (2 ^ 31) in E. lia. Qed.
Definition cafOk (f : CAF.cfmt) : Prop := 0 <= f_chan f -> (f_comp f = CALAC -> f_fpp f <> 0) -> usable f.
Theorem C60_caf_usable_partial :
  forall (B : Build) host fuel b x f', bytes_ok b = true -> CAF.cafOpen host fuel (mkFile b 0) = Ok (Some (x, f')) ->
    0 <= f_chan (p_fmt x) -> (f_comp (p_fmt x) = CALAC -> f_fpp (p_fmt x) <> 0) -> usable (p_fmt x) /\ 0 <= p_first x.
Proof.
  intros B host fuel b x f' Hb E0.
  assert (Y : yields b (CAF.cafOpen host fuel) (fun x => cafOk (p_fmt x) /\ 0 <= p_first x)).
  2:{ intros H1 H2. destruct (Y 0 x f' ltac:(lia) E0) as [[U F] _]. auto. }
  clear E0 x f'. set (P := fun s => (forall f, CAF.cs_fmt s = Some f -> cafOk f) /\ 0 <= CAF.cs_first s).
  unfold CAF.cafOpen. apply (y_bind _ _ _ P).
  2:{ intros s [U F]. apply y_lift. intros a E. unfold CAF.cafParsed in E. destruct (CAF.cs_fmt s) as [f|]; [|discriminate]. injection E as <-. cbn [p_fmt p_first]. auto. }
  assert (D : forall s, P s -> yields b (CAF.cafParseDesc host s) P).
  { intros s [U F]. unfold CAF.cafParseDesc. y_step Hb. eapply y_bind; [apply y_needTag|intros id _]. do 5 y_step Hb. unfold CAF.cafDescTail.
    match goal with |- context [if ?c =? 0 then hfail else _] => set (chan := c) in * end.
    assert (S32 : chan <> 0 -> 0 <= s32 chan -> 1 <= s32 chan /\ 1 <= chan).
    { change (2 ^ (8 * Z.of_nat 4)) with 4294967296 in *. unfold s32, sN. change (2 ^ 32) with 4294967296. change (2 ^ (32 - 1)) with 2147483648. lia. }
    assert (W : forall f, cafOk f -> P (CAF.cafSetFmt s f)) by (intros f Hf; split; [|exact F]; cbn [CAF.cafSetFmt CAF.cs_fmt]; intros g [= <-]; exact Hf).
    assert (AL : forall rate w fpp, fpp < 2 ^ 32 -> 0 <= fpp -> 1 <= w <= 32 -> chan <> 0 -> cafOk (mkFmt rate TwosComp w (s32 chan) host CALAC fpp 0)).
    { intros rate w fpp L1 L2 L3 Hc HC HF. specialize (HF eq_refl). cbn [f_chan f_fpp] in *. destruct (S32 Hc HC).
      constructor; cbn [f_chan f_sf f_width f_fpp f_bpp f_comp widthFits]; [lia|lia|lia|discriminate|intros _; split; [reflexivity|intros K; now destruct K]|intros [K|K]; discriminate]. }
    y_all Hb; apply y_ret; apply W; try (apply AL; [assumption || lia|lia|lia|lia]);
    intros HC HA; cbn [f_chan f_comp f_fpp] in *; destruct (S32 ltac:(lia) HC).
    - apply usable_pcm; [|lia|assumption]. match goal with |- context [if ?c then Float else Double] => destruct c eqn:? end; cbn [widthFits]; lia.
    - apply usable_pcm; [cbn [widthFits]; lia|lia|assumption].
    - apply usable_g711; [lia|auto].
    - apply usable_g711; [lia|auto].
    - match goal with H : ck32 _ = Ok _ |- _ => apply ck32_val in H; destruct H as [-> Hr] end. change (2 ^ 31) with 2147483648 in Hr.
      apply usable_coded; [lia|discriminate|lia|]. unfold u64. rewrite uN_small; [lia|]. change (2 ^ 64) with 18446744073709551616. lia. }
  assert (C : forall s tag n, P s -> yields b (CAF.cafChunk host s tag n) P).
  { intros s tag n Hs. pose proof Hs as [U F]. unfold CAF.cafChunk. y_step Hb; [apply D; exact Hs|]. y_step Hb.
    { unfold CAF.cafParseData. y_all Hb. destruct (CAF.cs_fmt s) as [fm|] eqn:Ef; [|apply y_ub]. apply y_ret. split; [exact U|assumption]. }
    y_step Hb.
    { unfold CAF.cafParsePakt. eapply (y_bind _ _ _ (fun _ => True)).
      - unfold PacketTable.paktParse. y_all Hb; apply y_ret; exact I.
      - intros [t|] _; apply y_ret; split; assumption. }
    y_step Hb; [|apply y_ret; exact Hs]. unfold CAF.cafParseCookie. y_all Hb. apply y_ret. split; assumption. }
  unfold CAF.cafRead. y_all Hb.
  assert (L : forall fuel len cur s, P s -> yields b (CAF.cafLoop host fuel len cur s) P).
  { clear fuel. induction fuel as [|fuel IH]; intros len cur s Hs; cbn [CAF.cafLoop]; y_step Hb; try (now apply y_ret); try apply y_fuel.
    eapply y_bind; [apply y_needTag|intros tag _]. y_step Hb. eapply y_bind; [apply C; exact Hs|]. intros s' Hs'. y_step Hb. eapply y_bind; [apply y_lseek|]. intros c _. apply IH. exact Hs'. }
  apply L. split; [discriminate|cbn; lia].
Qed.
Print Assumptions C60_caf_usable_partial.
Definition cafDescFile (id : list Z) (flags fpp chan : Z) : list Z :=
  CAF.cafMagic ++ CAF.T_desc ++ CAF.be8 32 ++ CAF.be8 0 ++ id ++ CAF.beU flags ++ CAF.beU 0 ++ CAF.beU fpp ++ CAF.beU chan ++ CAF.beU 8.
Theorem C60_caf_channels_refuted :
  forall (B : Build) host, exists b x f', bytes_ok b = true /\ CAF.cafOpen host 5 (mkFile b 0) = Ok (Some (x, f')) /\ f_chan (p_fmt x) = - 2 ^ 31.
Proof.
  intros B host. exists (cafDescFile CAF.T_ulaw 0 1 (2 ^ 31)). do 2 eexists. split; [reflexivity|]. split; [vm_compute; reflexivity|reflexivity].
Qed.
Print Assumptions C60_caf_channels_refuted.
Theorem C60_caf_alac_packet_refuted :
  forall (B : Build) host, exists b x f', bytes_ok b = true /\ CAF.cafOpen host 5 (mkFile b 0) = Ok (Some (x, f')) /\ f_comp (p_fmt x) = CALAC /\ f_fpp (p_fmt x) = 0.
Proof.
  intros B host. exists (cafDescFile CAF.T_alac 1 0 1). do 2 eexists. split; [reflexivity|]. split; [vm_compute; reflexivity|split; reflexivity].
Qed.
Print Assumptions C60_caf_alac_packet_refuted.

(** ** WAVE: the packet sizes of IMA and MS ADPCM are not checked *)
Definition waveOk (f : format) : Prop := (f_comp f = CIMA \/ f_comp f = CMSADPCM -> f_fpp f <> 0 /\ f_bpp f <> 0) -> usable f.
Theorem C60_wave_usable_partial :
  forall (B : Build) host fuel b x f', bytes_ok b = true -> WAVE.waveOpen host fuel (mkFile b 0) = Ok (Some (x, f')) ->
    (f_comp (p_fmt (fst x)) = CIMA \/ f_comp (p_fmt (fst x)) = CMSADPCM -> f_fpp (p_fmt (fst x)) <> 0 /\ f_bpp (p_fmt (fst x)) <> 0) ->
    usable (p_fmt (fst x)) /\ 0 <= p_first (fst x).
Proof.
  intros B host fuel b x f' Hb E0.
  assert (Y : yields b (WAVE.waveOpen host fuel) (fun x => waveOk (p_fmt (fst x)) /\ 0 <= p_first (fst x))).
  2:{ intros H1. destruct (Y 0 x f' ltac:(lia) E0) as [[U F] _]. auto. }
  clear E0 x f'. set (P := fun s => (forall f, WAVE.wv_fmt s = Some f -> waveOk f) /\ 0 <= WAVE.wv_first s).
  unfold WAVE.waveOpen. apply (y_bind _ _ _ P).
  2:{ intros s [U F]. unfold WAVE.waveParsed. destruct (WAVE.wv_fmt s) as [f|]; [|apply y_fail]. destruct (negb (WAVE.wv_data s)); [apply y_fail|].
      destruct (WAVE.wv_fact s); [apply y_ret; cbn [fst p_fmt p_first]; auto|]. destruct (_ && _); [apply y_ret; cbn [fst p_fmt p_first]; auto|apply y_fail]. }
  assert (PR : forall v (n : Z), (forall x, v = Some x -> 0 <= x < n) -> yields b (WAVE.present v) (fun x => 0 <= x < n)).
  { intros [v|] n H; [apply y_ret; auto|apply y_ub]. }
  assert (W : forall s f c, P s -> waveOk f -> P (WAVE.withFormat s f c)).
  { intros s f c [_ F] U. split; [|exact F]. cbn [WAVE.withFormat WAVE.wv_fmt]. intros g [= <-]. exact U. }
  assert (US : forall f, usable f -> waveOk f) by (intros f Hf _; exact Hf).
  assert (FP : forall s rate sf w ch, P s -> widthFits sf w -> 1 <= ch -> yields b (WAVE.fmtPCM s rate sf w ch) P).
  { intros s rate sf w ch Hs Hw Hc. unfold WAVE.fmtPCM. y_step Hb. apply y_ret, W, US; [exact Hs|]. now apply usable_pcm. }
  assert (FI : forall s rate bits w ch, P s -> 1 <= w <= 32 -> 1 <= ch -> yields b (WAVE.fmtInt s rate bits w ch) P).
  { intros s rate bits w ch Hs Hw Hc. unfold WAVE.fmtInt. apply FP; [exact Hs| |exact Hc]. destruct (bits <=? 8); exact Hw. }
  assert (FF : forall s rate bits ch, P s -> 1 <= ch -> yields b (WAVE.fmtFloat s rate bits ch) P).
  { intros s rate bits ch Hs Hc. unfold WAVE.fmtFloat. destruct (bits =? 64); apply FP; try exact Hs; try exact Hc; reflexivity. }
  assert (G : forall s rate ch c cs, P s -> 1 <= ch -> c = CUlaw \/ c = CAlaw -> yields b (hret (WAVE.withFormat s (mkFmt rate TwosComp 16 ch host c 1 ch) cs)) P).
  { intros s rate ch c cs Hs Hc Hg. apply y_ret, W, US; [exact Hs|]. now apply usable_g711. }
  assert (BL : forall rate ch c spb ba, 1 <= ch -> c = CIMA \/ c = CMSADPCM -> 0 <= spb -> 0 <= ba -> waveOk (mkFmt rate TwosComp 16 ch host c spb ba)).
  { intros rate ch c spb ba Hc Hcc H1 H2 HN. cbn [f_comp f_fpp f_bpp] in HN. specialize (HN Hcc). apply usable_coded; [lia| |lia|lia]. destruct Hcc; subst; discriminate. }
  assert (FM : forall s, P s -> yields b (WAVE.parseFormat host s) P).
  { intros s Hs. unfold WAVE.parseFormat. do 5 y_step Hb. y_step Hb; [apply y_fail|].
    match goal with H : 0 <= ?x < 2 ^ (8 * Z.of_nat 2), H2 : (?x =? 0) = false |- _ => rename x into ch; assert (Hc : 1 <= ch) by lia end.
    eapply y_bind; [apply PR; eassumption|]. intros rate Hr. y_step Hb.
    { y_step Hb. y_step Hb; [apply y_fail|]. apply FI; [exact Hs|lia|exact Hc]. }
    y_step Hb; [apply G; auto|]. y_step Hb; [apply G; auto|]. y_step Hb; [y_step Hb; apply FF; auto|]. y_step Hb.
    { unfold WAVE.fmtMS. y_all Hb. eapply (y_bind _ _ _ (fun _ => True)).
      - set (k := Z.to_nat _). clearbody k. induction k as [|k IHk]; cbn [WAVE.readCoefs]; [apply y_ret; exact I|]. y_all Hb. eapply y_bind; [exact IHk|]. intros; apply y_ret; exact I.
      - intros cs _. eapply y_bind; [apply PR; eassumption|]. intros ba Hba. cbv beta in Hba. apply y_ret, W; [exact Hs|]. apply BL; auto; match goal with H : 0 <= ?x < _ |- 0 <= ?x => exact (proj1 H) end. }
    y_step Hb.
    { unfold WAVE.fmtIMA. y_all Hb. eapply y_bind; [apply PR; eassumption|]. intros ba Hba. cbv beta in Hba. apply y_ret, W; [exact Hs|]. apply BL; auto; match goal with H : 0 <= ?x < _ |- 0 <= ?x => exact (proj1 H) end. }
    y_step Hb; [|apply y_fail].
    unfold WAVE.fmtExt. do 6 y_step Hb; [apply y_ub|]. y_step Hb.
    { eapply y_bind; [apply PR; eassumption|]. intros bits Hbits. y_step Hb; [apply y_fail|]. eapply y_bind; [apply PR; eassumption|]. intros valid Hv. cbv beta in Hv, Hbits. apply FI; [exact Hs| |exact Hc].
      match goal with |- context [if ?c then _ else _] => destruct c eqn:? end; lia. }
    y_step Hb; [eapply y_bind; [apply PR; eassumption|]; intros bits _; apply FF; auto|]. y_step Hb; [apply G; auto|]. y_step Hb; [apply G; auto|apply y_fail]. }
  assert (KM : forall s m, P s -> P (WAVE.withMarks s m)) by (intros s m [U F]; split; assumption).
  assert (KI : forall s m, P s -> P (WAVE.withMisc s m)) by (intros s m [U F]; split; assumption).
  unfold WAVE.waveRead. y_all Hb. eapply y_bind; [apply PR; eassumption|]. intros size Hsize.
  apply (y_chunkLoop b Hb _ u32); [intros y; unfold u32, uN; apply Z.mod_pos_bound; reflexivity| |split; [discriminate|cbn; lia]].
  intros s tag n Hs Hn. pose proof Hs as [U F]. unfold WAVE.waveChunk. y_step Hb; [apply FM; exact Hs|]. y_step Hb.
  { destruct (WAVE.wv_fmt s) as [fm|] eqn:Ef; [|apply y_fail]. unfold WAVE.parseData. y_all Hb. apply y_ret. split; [cbn [WAVE.wv_fmt]; rewrite Ef; exact U|assumption]. }
  y_step Hb; [apply y_ret; exact Hs|]. y_step Hb; [unfold WAVE.parseFact; y_all Hb; apply y_ret; split; assumption|]. y_step Hb.
  { unfold WAVE.parseCues. y_all Hb. eapply (y_bind _ _ _ (fun _ => True)); [|intros ms _; apply y_ret, KM; exact Hs].
    set (k := Z.to_nat _). clearbody k. induction k as [|k IHk]; cbn [WAVE.parseCueEntries]; [apply y_ret; exact I|]. y_all Hb. eapply y_bind; [exact IHk|]. intros; apply y_ret; exact I. }
  assert (PAD : forall (c : bool), yields b (if c then hret tt else hskip 1) (fun _ => True)) by (intros [|]; [apply y_ret; exact I|apply y_skip; lia]).
  y_step Hb.
  { unfold WAVE.parseList. y_all Hb; [| |apply y_ret; exact Hs].
    - set (fu := Datatypes.S _). set (e := _ + _). clearbody fu e. assert (Z0 : forall q, 0 <= u32 q) by (intros; unfold u32, uN; apply Z.mod_pos_bound; reflexivity).
      revert s Hs U F. induction fu as [|fu IH]; intros s Hs U F; cbn [WAVE.adtlLoop]; y_step Hb; y_step Hb; try (apply y_ret; exact Hs); [apply y_fuel|].
      do 2 y_step Hb. y_step Hb.
      + y_step Hb. y_step Hb. eapply y_bind; [apply PAD|]. intros ? _. apply IH; [apply KM; exact Hs|exact U|exact F].
      + y_step Hb; [apply Z0|]. apply IH; assumption.
    - set (fu := Datatypes.S _). set (e := _ + _). clearbody fu e.
      revert s Hs U F. induction fu as [|fu IH]; intros s Hs U F; cbn [WAVE.infoLoop]; y_step Hb; y_step Hb; try (apply y_ret; exact Hs); [apply y_fuel|].
      do 2 y_step Hb. apply (y_bind _ _ _ P).
      + destruct (WAVE.waveMiscType _); [y_step Hb; apply y_ret, KI; exact Hs|]. y_step Hb. apply y_ret; exact Hs.
      + intros s' Hs'. eapply y_bind; [apply PAD|]. intros ? _. apply IH; [exact Hs'|apply Hs'|apply Hs']. }
  y_step Hb; [apply y_ret; exact Hs|]. y_step Hb; [unfold WAVE.parsePlayList; y_all Hb; apply y_ret; exact Hs|]. apply y_ret; exact Hs.
Qed.
Print Assumptions C60_wave_usable_partial.
(** A WAVE file with the given fmt contents after the format tag 0x11 (IMA), a fact chunk and [data]. *)
Definition imaFile (ch ba spb : Z) (data : list Z) : list Z :=
  let fmt := VOC.le2 0x11 ++ VOC.le2 ch ++ VOC.le4 8000 ++ VOC.le4 0 ++ VOC.le2 ba ++ VOC.le2 4 ++ VOC.le2 2 ++ VOC.le2 spb in
  WAVE.T_RIFF ++ VOC.le4 (60 + zlen data - 8) ++ WAVE.T_WAVE ++ WAVE.T_fmt ++ VOC.le4 20 ++ fmt ++
  WAVE.T_fact ++ VOC.le4 4 ++ VOC.le4 9 ++ WAVE.T_data ++ VOC.le4 (zlen data) ++ data.
(** Packets of no frames and no bytes are accepted: BlockCodec then divides by zero. *)
Theorem C60_wave_empty_packet_refuted :
  forall (B : Build) host, exists b x f', bytes_ok b = true /\ WAVE.waveOpen host 5 (mkFile b 0) = Ok (Some (x, f')) /\
    f_comp (p_fmt (fst x)) = CIMA /\ f_fpp (p_fmt (fst x)) = 0 /\ f_bpp (p_fmt (fst x)) = 0.
Proof.
  intros B host. exists (imaFile 1 0 0 [1; 2]). do 2 eexists. split; [reflexivity|]. split; [destruct B; vm_compute; reflexivity|]. repeat split; reflexivity.
Qed.
Print Assumptions C60_wave_empty_packet_refuted.
(** A block size too small for its frames is accepted (the error is reported, reading goes on): decoding a block reads
    outside it. *)
Theorem C60_wave_small_packet_refuted :
  forall (B : Build) host, exists b x f', bytes_ok b = true /\ WAVE.waveOpen host 5 (mkFile b 0) = Ok (Some (x, f')) /\
    f_comp (p_fmt (fst x)) = CIMA /\ f_chan (p_fmt (fst x)) = 1 /\ f_fpp (p_fmt (fst x)) = 9 /\ f_bpp (p_fmt (fst x)) = 4 /\
    forall e0 e1 e3, IMA.decodeBlockWAVE 9 1 [e0; e1; 0; e3] = UB.
Proof.
  intros B host. exists (imaFile 1 4 9 [1; 0; 0; 0]). do 2 eexists. split; [reflexivity|]. split; [destruct B; vm_compute; reflexivity|]. repeat (split; [reflexivity|]).
  intros e0 e1 e3. cbv [IMA.decodeBlockWAVE IMA.decodeHeadersWAVE]. destruct (Z.testbit e1 7); reflexivity.
Qed.
Print Assumptions C60_wave_small_packet_refuted.


(** ** The audio data is in a sound chunk *)
(** A WAVE file without data chunk does not open; the data never lies in the header. *)
Theorem C60_wave_data_chunk :
  forall (B : Build) host fuel b x f', bytes_ok b = true -> WAVE.waveOpen host fuel (mkFile b 0) = Ok (Some (x, f')) ->
    WAVE.wv_data (snd x) = true /\ p_first (fst x) = WAVE.wv_first (snd x) /\ p_dsize (fst x) = WAVE.wv_dsize (snd x).
Proof.
  intros B host fuel b x f' Hb E. unfold WAVE.waveOpen, hbind in E. destruct (WAVE.waveRead host fuel (mkFile b 0)) as [[[s f]|]| | |]; cbn [rbind] in E; try discriminate.
  unfold WAVE.waveParsed in E. destruct (WAVE.wv_fmt s); [|discriminate]. destruct (WAVE.wv_data s) eqn:D; [|discriminate]. cbn [negb] in E.
  destruct (WAVE.wv_fact s); [|destruct (_ && _); [|discriminate]]; injection E as <- <-; cbn [fst snd p_first p_dsize]; auto.
Qed.
Print Assumptions C60_wave_data_chunk.
(** An AIFF file that announces frames but has no sound chunk opens, with the data at the beginning of the file: the header
    is delivered as audio. *)
Theorem C60_aiff_without_sound_refuted :
  forall (B : Build) host, exists b x f', bytes_ok b = true /\ AIFF.aiffOpen false host 5 (mkFile b 0) = Ok (Some (x, f')) /\
    p_first x = 0 /\ p_total x = 5.
Proof.
  intros B host. exists (AIFF.T_FORM ++ AIFF.be4 30 ++ AIFF.T_AIFF ++ AIFF.T_COMM ++ AIFF.be4 18 ++ AIFF.be2 1 ++ AIFF.be4 5 ++ AIFF.be2 16 ++ [64; 11; 250; 0; 0; 0; 0; 0; 0; 0]).
  do 2 eexists. split; [reflexivity|]. split; [destruct B; vm_compute; reflexivity|split; reflexivity].
Qed.
Print Assumptions C60_aiff_without_sound_refuted.

(** The hypotheses are met: files that open. *)
Example C60_examples :
  (exists x f', WAVE.waveOpen (B := Debug) LittleEndian 5 (mkFile (imaFile 1 8 9 [1; 0; 0; 0; 0; 0; 0; 0]) 0) = Ok (Some (x, f')) /\ f_fpp (p_fmt (fst x)) = 9) /\
  (exists x f', IRCAM.ircamRead LittleEndian (mkFile (IRCAM.vax_le ++ VOC.le4 0x46ac4400 ++ VOC.le4 2 ++ VOC.le4 2) 0) = Ok (Some (x, f')) /\ f_chan (p_fmt x) = 2) /\
  (exists x f', VOC.vocOpen LittleEndian 5 (mkFile (VOC.vocInit (mkFmt 8000 Unsigned 8 1 LittleEndian CNone 1 1)) 0) = Ok (Some (x, f')) /\ f_chan (p_fmt x) = 1) /\
  (exists x f', IFF.iffOpen 5 (mkFile (AIFF.T_FORM ++ AIFF.be4 40 ++ IFF.T_8SVX ++ IFF.iffBody 8000 [] 0) 0) = Ok (Some (x, f')) /\ f_width (p_fmt x) = 8) /\
  (exists x f', AVR.avrRead (mkFile (AVR.avrInit (zrepeat 0 8) (mkFmt 8000 TwosComp 16 2 BigEndian CNone 1 4)) 0) = Ok (Some (x, f')) /\ f_bpp (p_fmt x) = 4).
Proof. repeat split; (do 2 eexists; split; [vm_compute; reflexivity|reflexivity]). Qed.
