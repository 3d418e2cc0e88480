(** * C57: files that are opened with defined behaviour

    For each file format: conditions on the bytes of a file under which opening it returns, with or without success, and
    neither uses an uninitialised value, nor overflows, nor fails an assertion.  The refutations of C57, next to each format's
    other theorems, show that the conditions are needed. *)
From Coq Require Import Floats.SpecFloat.
From Verif Require Import Prelude PreludeFacts ByteOrder FileIO WriterSpec Codecs HeaderIO Chunks Yields Defined.
From Verif Require Import PropertiesTerminate.
From Verif Require AVR IFF AIFF VOC SampleVision NIST WAVE.
From Coq Require Import Lia.

Lemma runs_open {A} b (p : hP A) Q : runs b 0 p Q -> exists r, p (mkFile b 0) = Ok r.
Proof. intros [E|(a & q & E & _)]; eauto. Qed.
(** One reader at the head of the goal: a field that is there, a field that may be missing, a test. *)
Ltac r_u Hb := eapply r_bind; [apply (r_readU _ Hb); lia|].
Ltac r_t Hb := eapply r_bind; [apply (r_tryU _ Hb); lia|]; let v := fresh "v" in let q := fresh "qt" in let H := fresh "T" in intros v q (H & _ & _).
Ltac r_h :=
  match goal with
  | |- runs _ _ (hbind (hread _) _) _ => eapply r_bind; [apply r_read|]
  | |- runs _ _ (hbind (hseek _) _) _ => eapply r_bind; [apply r_seek|]
  | |- runs _ _ (hbind (hskip _) _) _ => eapply r_bind; [apply r_skip|]
  | |- runs _ _ (hbind htell _) _ => eapply r_bind; [apply r_tell|]
  | |- runs _ _ (hbind hlength _) _ => eapply r_bind; [apply r_length|]
  | |- runs _ _ (hbind readTag _) _ => eapply r_bind; [apply r_readTag; lia|]
  end.
Ltac r_if := match goal with |- runs _ _ (if ?c then _ else _) _ => destruct c eqn:?; try apply r_fail end.

(** ** AVR *)
Theorem C57_avr_defined_partial :
  forall b, bytes_ok b = true -> 30 <= zlen b -> exists r, AVR.avrRead (mkFile b 0) = Ok r.
Proof.
  intros b Hb Hl. apply (runs_open b _ (fun _ _ => True)). unfold AVR.avrRead.
  r_h. intros _ q ->. r_h. intros d q [-> ->].
  pose proof (got b 0 4 ltac:(lia) ltac:(lia)) as L. set (d := zfirstn 4 _) in *. assert (L4 : zlen d = 4) by lia. rewrite L4. r_if. r_if.
  r_h. intros d8 q [-> ->]. pose proof (got b (0 + 4) 8 ltac:(lia) ltac:(lia)) as L8. set (d8 := zfirstn 8 _) in *. assert (zlen d8 = 8) as -> by lia.
  r_u Hb. intros mono q (-> & _ & M). r_u Hb. intros resolution q (-> & _ & R). r_u Hb. intros sign q (-> & _ & S). r_t Hb. r_t Hb.
  r_u Hb. intros rate q' (-> & _ & _). r_u Hb. intros size q' (-> & _ & _). r_t Hb. r_t Hb. r_h. intros d26 q5 [-> ->]. r_h. intros d64 q5 [-> ->].
  unfold AVR.avrTail. r_if. r_if. r_if. eapply r_ok.
  { apply bppPCM_ok; [lia|destruct (mono =? 0); lia|]. change (2 ^ 31) with 2147483648. assert (resolution = 8 \/ resolution = 16) as [->| ->] by lia; destruct (mono =? 0); cbn; lia. }
  r_h. intros p q7 _. apply r_ret. exact I.
Qed.
Print Assumptions C57_avr_defined_partial.
Example C57_avr_example : let b := [50; 66; 73; 84] ++ zrepeat 0 26 in bytes_ok b = true /\ 30 <= zlen b.
Proof. cbv zeta. split; [vm_compute; reflexivity|vm_compute; discriminate]. Qed.
(** A file that ends before the number of frames: the rate or the size is not initialised. *)
Theorem C57_avr_short_refuted : AVR.avrRead (mkFile (AVR.avr_magic ++ zrepeat 0 22) 0) = UB /\ AVR.avrRecognize (mkFile (AVR.avr_magic ++ zrepeat 0 22) 0) = true.
Proof. split; vm_compute; reflexivity. Qed.
Print Assumptions C57_avr_short_refuted.

(** ** IFF/8SVX *)
(** The chunks the reader looks at: [walk] of [Chunks]; chunk [i] has its tag at [i + 8], its size at [i + 12] and its
    contents from [i + 16].  A size of 2^32 - 8 is C38's endless loop. *)
Definition formChunk (b : list Z) (i : Z) : Prop := walk BigEndian u64 b (word BigEndian b 4) i /\ i < word BigEndian b 4.
Lemma walk_small b i : bytes_ok b = true -> walk BigEndian u64 b (word BigEndian b 4) i -> 0 <= i /\ u64 (i + 8) = i + 8.
Proof.
  intros Hb W. pose proof (word_range BigEndian b 4 Hb) as R. destruct (walk_u64_range BigEndian b _ i (proj2 R) Hb W) as [H0 H1]. split; [exact H0|].
  unfold u64. apply uN_small. change (2 ^ 40) with 1099511627776 in H1. change (2 ^ 64) with 18446744073709551616. lia.
Qed.
(** The loop over the chunks of a FORM file, from byte 12. *)
Lemma form_loop {S} b (body : S -> list Z -> Z -> hP S) (K : S -> Prop) (P : Z -> Prop) fuel s :
  bytes_ok b = true -> word BigEndian b 4 <= Z.of_nat fuel ->
  (forall i, formChunk b i -> word BigEndian b (i + 12) <> 2 ^ 32 - 8) ->
  (forall i s q, formChunk b i -> 0 <= i -> 0 <= q <= i + 16 -> (i + 16 <= zlen b -> q = i + 16) ->
     runs b q (body s (tagAt b (i + 8)) (word BigEndian b (i + 12))) (fun s' _ => (K s \/ P i -> K s'))) ->
  (exists i, formChunk b i /\ P i) ->
  runs b 12 (chunkLoop BigEndian u64 body fuel (word BigEndian b 4) 4 s) (fun s' _ => K s').
Proof.
  intros Hb Hf Hsz Hbody (i0 & (W0 & L0) & P0). pose proof (word_range BigEndian b 4 Hb) as R. set (size := word BigEndian b 4) in *.
  eapply r_weak; [apply (r_chunkLoop b BigEndian u64 size) with (I := fun i s => K s \/ ahead b BigEndian u64 size P i)|].
  - intros x. unfold u64, uN. apply Z.mod_pos_bound. reflexivity.
  - intros i s1 q W Hi HI p Hq1 Hq2 _. destruct (walk_small b i Hb W) as [Hi0 Ep]. unfold p in *. rewrite Ep in *. clear p. replace (i + 8 + 4) with (i + 12) in * by lia. replace (i + 8 + 8) with (i + 16) in * by lia.
    eapply r_weak; [apply (Hbody i s1 q (conj W Hi) Hi0 Hq1 Hq2)|]. intros s' q' H. cbv beta in *. destruct HI as [HK|HA]; [left; auto|].
    destruct (ahead_inv _ _ _ _ _ _ HA) as [_ [HP|HA']]; [left; auto|right]. rewrite Ep in HA'. replace (i + 8 + 4) with (i + 12) in HA' by lia. exact HA'.
  - intros i W Hi. apply (walk_u64_grows BigEndian b size i (proj2 R) Hb W). apply Hsz. split; assumption.
  - constructor.
  - right. apply (walk_ahead b BigEndian u64 size P i0 W0). now apply AH_here.
  - lia.
  - intros s' q' (j & Hj & [HK|HA]); [exact HK|]. destruct (ahead_inv _ _ _ _ _ _ HA) as [Hlt _]. lia.
Qed.
Lemma tagAt_eq b p t : t <> [0;0;0;0] -> teq (tagAt b p) t = true -> tagAt b p = t.
Proof. intros _ H. unfold teq in H. destruct (list_eq_dec Z.eq_dec (tagAt b p) t); congruence. Qed.
Lemma word_read b q o : q + 4 <= zlen b -> 0 <= q -> valueOf o (zfirstn (Z.of_nat 4) (zskipn q b)) = word o b q.
Proof. intros H Hq. unfold word. rewrite got by lia. replace (Z.min 4 _ =? 4) with true by lia. reflexivity. Qed.

Theorem C57_iff_defined_partial :
  forall b fuel, bytes_ok b = true -> 12 <= zlen b -> word BigEndian b 4 <= Z.of_nat fuel ->
    (forall i, formChunk b i -> word BigEndian b (i + 12) <> 2 ^ 32 - 8 /\ (tagAt b (i + 8) = IFF.T_VHDR -> i + 16 + 14 <= zlen b)) ->
    (exists i, formChunk b i /\ tagAt b (i + 8) = IFF.T_VHDR) ->
    exists r, IFF.iffOpen fuel (mkFile b 0) = Ok r.
Proof.
  intros b fuel Hb Hl Hf Hc Hv. apply (runs_open b _ (fun _ _ => True)). unfold IFF.iffOpen.
  eapply r_bind with (P := fun s _ => IFF.is_fmt s <> None).
  2:{ intros s q Hs. destruct (IFF.is_fmt s) eqn:E; [|congruence]. apply r_lift. eauto. }
  unfold IFF.iffRead. r_h. intros _ q ->. r_h. intros t q (-> & _ & Hq & _). rewrite (Hq ltac:(lia)). clear Hq. r_u Hb. intros size q' (-> & -> & _).
  rewrite word_read by lia. r_h. intros form q' (-> & _ & Hq & _). rewrite (Hq ltac:(lia)). r_if. change (0 + 4) with 4. change (4 + Z.of_nat 4 + 4) with 12.
  apply (form_loop b IFF.iffChunk (fun s => IFF.is_fmt s <> None) (fun i => tagAt b (i + 8) = IFF.T_VHDR)); auto; [intros i Hi; now apply Hc|].
  intros i s q1 Hi Hi0 Q1 Q2. destruct (Hc i Hi) as [_ Hr]. unfold IFF.iffChunk.
  destruct (teq (tagAt b (i + 8)) IFF.T_VHDR) eqn:E1.
  { apply tagAt_eq in E1; [|discriminate]. specialize (Hr E1). rewrite (Q2 ltac:(lia)). unfold IFF.parseVHDR. r_t Hb. r_t Hb. r_t Hb. r_u Hb. intros rate q2 (-> & _ & _). r_t Hb. r_t Hb. r_t Hb. apply r_ret. cbn. discriminate. }
  assert (NV : tagAt b (i + 8) <> IFF.T_VHDR) by (intros E; rewrite E, teq_refl in E1; discriminate).
  destruct (teq (tagAt b (i + 8)) IFF.T_BODY). { unfold IFF.parseBODY. r_h. intros p q2 _. apply r_ret. cbn. tauto. }
  destruct (IFF.iffTagMisc _) as [ty|]; [|apply r_ret; tauto]. unfold IFF.iffMisc. destruct (_ =? 0); [apply r_ret; tauto|]. r_h. intros d q2 _. apply r_ret. cbn. tauto.
Qed.
Print Assumptions C57_iff_defined_partial.
Definition exIFF : list Z := AIFF.T_FORM ++ AIFF.be4 50 ++ IFF.T_8SVX ++ AIFF.T_ANNO ++ AIFF.be4 2 ++ [65; 66] ++ IFF.T_VHDR ++ AIFF.be4 20 ++ zrepeat 7 20 ++ IFF.T_BODY ++ AIFF.be4 3 ++ [1;2;3].
Example C57_iff_example : bytes_ok exIFF = true /\ 12 <= zlen exIFF /\ word BigEndian exIFF 4 <= Z.of_nat 50 /\
    (forall i, formChunk exIFF i -> word BigEndian exIFF (i + 12) <> 2 ^ 32 - 8 /\ (tagAt exIFF (i + 8) = IFF.T_VHDR -> i + 16 + 14 <= zlen exIFF)) /\
    (exists i, formChunk exIFF i /\ tagAt exIFF (i + 8) = IFF.T_VHDR).
Proof.
  split; [reflexivity|]. split; [vm_compute; discriminate|]. split; [vm_compute; discriminate|].
  assert (K : forall i, walk BigEndian u64 exIFF (word BigEndian exIFF 4) i -> i = 4 \/ i = 14 \/ i = 42 \/ i = 54).
  { intros i W. induction W as [|i W [->|[->|[->| ->]]] Hi]; [left; reflexivity|right; left; reflexivity|right; right; left; reflexivity|right; right; right; reflexivity|]. vm_compute in Hi. discriminate. }
  split.
  - intros i [W Hi]. destruct (K i W) as [->|[->|[->| ->]]]; (split; [vm_compute; discriminate|]); vm_compute; intros; discriminate.
  - exists 14. split; [|reflexivity]. split; [|reflexivity]. change 14 with (nextIndex u64 4 (word BigEndian exIFF (u64 (4 + 8) + 4))). constructor; [constructor|reflexivity].
Qed.

(** ** AIFF and AIFF-C *)
(** What the reader takes from a chunk at [i] without checking that it is there; [aifc]: the file is read as AIFF-C. *)
Definition unsupported (id : list Z) : Prop := In id [AIFF.T_ACE2; AIFF.T_ACE8; AIFF.T_MAC3; AIFF.T_MAC6].
Definition aiffChunkOK (debug aifc : bool) (b : list Z) (i : Z) : Prop :=
  let tag := tagAt b (i + 8) in let n := word BigEndian b (i + 12) in let start := i + 16 in
  n <> 2 ^ 32 - 8 /\
  (tag = AIFF.T_COMM -> start + 18 <= zlen b) /\
  (tag = AIFF.T_COMM -> aifc = true -> unsupported (tagAt b (start + 18)) -> start + 23 + nth (Z.to_nat (start + 22)) b 0 <= zlen b) /\
  (tag = AIFF.T_INST -> start + 20 <= zlen b) /\
  (tag = AIFF.T_MARK -> start + 2 <= zlen b) /\
  (tag = AIFF.T_SSND -> start + 4 <= zlen b) /\
  (tag = AIFF.T_AESD -> debug = true -> n = 24).
Lemma fromExtended_ok d : zlen d = 10 -> exists x, Extended.fromExtended d = Ok x.
Proof.
  intros H. do 10 (destruct d as [|? d]; [rewrite ?zlen_cons in H; change (zlen (@nil Z)) with 0 in H; lia|]). destruct d as [|y d]; [eexists; reflexivity|].
  rewrite !zlen_cons in H. pose proof (zlen_nonneg d). lia.
Qed.
Lemma r_commDone b q s rate sf w ch o c fpp bpp total : runs b q (AIFF.commDone s rate sf w ch o c fpp bpp total) (fun s' _ => AIFF.as_fmt s' <> None).
Proof. unfold AIFF.commDone. destruct sf; try r_if; apply r_ret; cbn; discriminate. Qed.
Lemma r_commPCM b q s rate sf w ch o total : 0 <= w < 65536 -> 0 < ch < 65536 -> runs b q (AIFF.commPCM s rate sf w ch o total) (fun s' _ => AIFF.as_fmt s' <> None).
Proof.
  intros Hw Hc. unfold AIFF.commPCM, bppPCM, ck32, inS. rewrite Z.quot_div_nonneg by lia. assert (0 <= (w + 7) / 8 < 8193) by (split; [apply Z.div_pos; lia|apply Z.div_lt_upper_bound; lia]).
  set (k := (w + 7) / 8) in *. clearbody k. change (2 ^ (32 - 1)) with 2147483648. assert (0 <= k * ch < 2147483648) by nia. set (m := k * ch) in *. clearbody m. replace ((- (2147483648) <=? m) && (m <? 2147483648)) with true by lia.
  eapply r_ok; [reflexivity|]. apply r_commDone.
Qed.
Lemma r_marks b n : forall q, 0 <= q -> runs b q (AIFF.parseMarks n) (fun _ _ => True).
Proof.
  induction n as [|n IH]; intros q Hq; cbn [AIFF.parseMarks]; [now apply r_ret|]. unfold readU0.
  assert (T : forall o k q1 (K : Z -> hP (list (Z * AIFF.amarker))), 0 <= q1 -> (forall x q2, 0 <= q2 -> runs b q2 (K x) (fun _ _ => True)) -> runs b q1 (hbind (hbind (tryU o k) (fun v => hret (match v with Some x => x | None => 0 end))) K) (fun _ _ => True)).
  { intros o k q1 K Hq1 HK. eapply r_bind with (P := fun _ q2 => 0 <= q2); [|intros; now apply HK]. unfold runs, hbind, tryU, fread, hret. cbn [fbytes fpos rbind]. right. eexists _, _. split; [reflexivity|].
    pose proof (zlen_nonneg (zfirstn (Z.of_nat k) (zskipn q1 b))). lia. }
  apply T; [exact Hq|]. intros x q2 H2. apply T; [exact H2|]. intros y q3 H3. r_h. intros d q4 [_ ->]. pose proof (zlen_nonneg d). r_h. intros d' q5 [_ ->]. pose proof (zlen_nonneg d').
  eapply r_bind with (P := fun _ q6 => 0 <= q6). { destruct (_ =? 0); [eapply r_weak; [apply r_skip|cbv beta; intros; lia]|apply r_ret; lia]. }
  intros _ q6 H6. eapply r_bind; [apply IH; exact H6|]. intros ms q7 _. now apply r_ret.
Qed.
Lemma one_byte b q : 0 <= q -> q + 1 <= zlen b -> zfirstn 1 (zskipn q b) = [nth (Z.to_nat q) b 0].
Proof.
  intros Hq Hl. unfold zfirstn, zskipn. change (Z.to_nat 1) with 1%nat. unfold zlen in Hl. assert (H : (Z.to_nat q < length b)%nat) by lia. clear Hl. revert H. generalize (Z.to_nat q). clear.
  intros n. revert b. induction n as [|n IH]; intros [|x b] H; cbn [length] in H; try lia; [reflexivity|]. cbn [skipn nth]. apply IH. lia.
Qed.
Lemma r_comm b q (B : Build) aifc host s : bytes_ok b = true -> 0 <= q -> q + 18 <= zlen b ->
  (aifc = true -> unsupported (tagAt b (q + 18)) -> q + 23 + nth (Z.to_nat (q + 22)) b 0 <= zlen b) ->
  runs b q (AIFF.parseCOMM aifc host s) (fun s' _ => AIFF.as_fmt s' <> None).
Proof.
  intros Hb Hq Hl Hn. unfold AIFF.parseCOMM. r_u Hb. intros ch q1 (-> & _ & C). r_if. r_u Hb. intros frames q1 (-> & _ & F). r_u Hb. intros width q1 (-> & _ & W).
  r_h. intros rb q1 [-> ->]. pose proof (got b (q + Z.of_nat 2 + Z.of_nat 4 + Z.of_nat 2) 10 ltac:(lia) ltac:(lia)) as L. set (rb := zfirstn 10 _) in *. assert (L10 : zlen rb = 10) by lia. rewrite L10.
  destruct (fromExtended_ok rb L10) as [rate Er]. eapply r_ok; [exact Er|]. change (2 ^ (8 * Z.of_nat 2)) with 65536 in *. change (q + Z.of_nat 2 + Z.of_nat 4 + Z.of_nat 2 + 10) with (q + 2 + 4 + 2 + 10).
  replace (q + 2 + 4 + 2 + 10) with (q + 18) by lia. destruct aifc; [|apply r_commPCM; lia].
  r_h. intros id q1 (-> & Q1 & Q2 & Q3).
  assert (NM : runs b q1 AIFF.readPString (fun nm _ => unsupported (tagAt b (q + 18)) -> nm <> None)).
  { unfold AIFF.readPString. r_h. intros d q2 [-> ->]. destruct (Z.le_gt_cases (q + 23) (zlen b)) as [H23|H23].
    - rewrite (Q2 ltac:(lia)). replace (q + 18 + 4) with (q + 22) by lia. rewrite one_byte by lia. r_h. intros d2 q3 [-> ->]. change (zlen [nth (Z.to_nat (q + 22)) b 0]) with 1.
      apply r_ret. intros U. specialize (Hn eq_refl U). assert (0 <= nth (Z.to_nat (q + 22)) b 0).
      { destruct (nth_in_or_default (Z.to_nat (q + 22)) b 0) as [Hin| ->]; [|lia]. apply bytes_ok_spec in Hb. rewrite Forall_forall in Hb. specialize (Hb _ Hin). lia. }
      rewrite got by lia. replace (_ =? _) with true by lia. discriminate.
    - assert (NU : ~ unsupported (tagAt b (q + 18))). { intros U. specialize (Hn eq_refl U).
        destruct (nth_in_or_default (Z.to_nat (q + 22)) b 0) as [Hin|E]; [|lia]. apply bytes_ok_spec in Hb. rewrite Forall_forall in Hb. specialize (Hb _ Hin). lia. }
      destruct (zfirstn 1 (zskipn q1 b)) as [|x [|y l]]; [apply r_ret; tauto|r_h; intros d2 q3 [-> ->]; apply r_ret; tauto|apply r_ret; tauto]. }
  eapply r_bind; [exact NM|]. intros nm q2 Hnm. cbv beta in Hnm. unfold AIFF.commAIFC.
  destruct (_ || _); [apply r_commPCM; lia|]. destruct (teq _ AIFF.T_in24); [apply r_commPCM; lia|]. destruct (teq _ AIFF.T_in32); [apply r_commPCM; lia|].
  destruct (teq (tagAt b (q + 18)) AIFF.T_ACE2 || _ || _ || _) eqn:EU.
  { assert (U : unsupported (tagAt b (q + 18))).
    { unfold unsupported, teq in *. destruct (list_eq_dec Z.eq_dec (tagAt b (q + 18)) AIFF.T_ACE2) as [->|]; [cbn; auto|]. destruct (list_eq_dec Z.eq_dec (tagAt b (q + 18)) AIFF.T_ACE8) as [->|]; [cbn; auto|].
      destruct (list_eq_dec Z.eq_dec (tagAt b (q + 18)) AIFF.T_MAC3) as [->|]; [cbn; auto|]. destruct (list_eq_dec Z.eq_dec (tagAt b (q + 18)) AIFF.T_MAC6) as [->|]; [cbn; auto 6|discriminate]. }
    destruct nm; [apply r_fail|]. now destruct (Hnm U). }
  clear EU NM Hnm. repeat (match goal with |- runs _ _ (if ?c then _ else _) _ => destruct c end; [first [apply r_commDone|apply r_commPCM; lia]|]). apply r_fail.
Qed.

Theorem C57_aiff_defined_partial :
  forall (B : Build) aifc host b fuel, bytes_ok b = true -> 12 <= zlen b -> word BigEndian b 4 <= Z.of_nat fuel ->
    (forall i, formChunk b i -> aiffChunkOK asserting aifc b i) ->
    (exists i, formChunk b i /\ tagAt b (i + 8) = AIFF.T_COMM) ->
    exists r, AIFF.aiffOpen aifc host fuel (mkFile b 0) = Ok r.
Proof.
  intros B aifc host b fuel Hb Hl Hf Hc Hv. apply (runs_open b _ (fun _ _ => True)). unfold AIFF.aiffOpen.
  eapply r_bind with (P := fun s _ => AIFF.as_fmt s <> None).
  2:{ intros s q Hs. unfold AIFF.aiffParsed. destruct (AIFF.as_fmt s) eqn:E; [|congruence]. apply r_lift. eauto. }
  unfold AIFF.aiffRead. r_h. intros _ q ->. r_h. intros t q [-> ->]. rewrite got by lia. replace (Z.min 4 (Z.max 0 (zlen b - 0))) with 4 by lia. change (0 + 4) with 4. r_u Hb. intros size q' (-> & -> & _).
  rewrite word_read by lia. r_h. intros form q' [-> ->]. rewrite got by lia. replace (Z.min 4 _) with 4 by lia. r_if. change (4 + Z.of_nat 4 + 4) with 12.
  apply (form_loop b (AIFF.aiffChunk aifc host) (fun s => AIFF.as_fmt s <> None) (fun i => tagAt b (i + 8) = AIFF.T_COMM)); auto; [intros i Hi; now apply Hc|].
  intros i s q1 Hi Hi0 Q1 Q2. destruct (Hc i Hi) as (_ & H1 & H2 & H3 & H4 & H5 & H6). clear Hc Hi. unfold AIFF.aiffChunk. set (tag := tagAt b (i + 8)) in *.
  assert (TE : forall t, teq tag t = true -> tag = t) by (intros t; unfold teq; destruct (list_eq_dec Z.eq_dec tag t); congruence).
  destruct (teq tag AIFF.T_COMM) eqn:E1.
  { apply TE in E1. specialize (H1 E1). rewrite (Q2 ltac:(lia)). eapply r_weak; [apply r_comm; auto; lia|]. cbv beta. tauto. }
  assert (NC : tag <> AIFF.T_COMM) by (intros E; rewrite E, teq_refl in E1; discriminate).
  destruct (teq tag AIFF.T_FVER). { r_t Hb. apply r_ret. tauto. }
  destruct (teq tag AIFF.T_INST) eqn:E2.
  { apply TE in E2. specialize (H3 E2). rewrite (Q2 ltac:(lia)). unfold AIFF.parseINST. do 13 (r_u Hb; intros ? q2 (-> & _ & _)). apply r_ret. cbn. tauto. }
  destruct (teq tag AIFF.T_MARK) eqn:E3.
  { apply TE in E3. specialize (H4 E3). rewrite (Q2 ltac:(lia)). unfold AIFF.parseMARK. r_u Hb. intros n q2 (-> & _ & _). eapply r_bind; [apply r_marks; lia|]. intros ms q3 _. apply r_ret. cbn. tauto. }
  destruct (teq tag AIFF.T_AESD) eqn:E4.
  { apply TE in E4. unfold AIFF.parseAESD. eapply r_bind; [apply r_assert|].
    { destruct B eqn:EB; [right|left]; [|reflexivity]. rewrite (H6 E4 eq_refl). reflexivity. }
    intros _ q2 ->. r_h. intros d q3 _. apply r_ret. cbn. tauto. }
  destruct (AIFF.tagMisc tag) as [ty|]. { unfold AIFF.parseMisc. destruct (_ =? 0); [apply r_ret; tauto|]. r_h. intros d q2 _. apply r_ret. cbn. tauto. }
  destruct (teq tag AIFF.T_SSND) eqn:E5; [|apply r_ret; tauto]. destruct (AIFF.as_ssnd s); [apply r_fail|].
  apply TE in E5. specialize (H5 E5). rewrite (Q2 ltac:(lia)). unfold AIFF.parseSSND. r_u Hb. intros off q2 (-> & _ & _). r_t Hb. r_h. intros p q3 _. apply r_ret. cbn. tauto.
Qed.
Print Assumptions C57_aiff_defined_partial.
(** AIFF-C with an unsupported compression, markers and sound. *)
Definition exAIFC : list Z := AIFF.T_FORM ++ AIFF.be4 66 ++ AIFF.T_AIFC ++
  AIFF.T_COMM ++ AIFF.be4 26 ++ [0;1] ++ AIFF.be4 1 ++ [0;16] ++ [0x40;0x0b;0xfa;0;0;0;0;0;0;0] ++ AIFF.T_MAC3 ++ [3;65;66;67] ++
  AIFF.T_MARK ++ AIFF.be4 2 ++ [0;0] ++ AIFF.T_SSND ++ AIFF.be4 10 ++ AIFF.be4 0 ++ AIFF.be4 0 ++ [1;2].
Example C57_aiff_example : bytes_ok exAIFC = true /\ 12 <= zlen exAIFC /\ word BigEndian exAIFC 4 <= Z.of_nat 66 /\
    (forall i, formChunk exAIFC i -> aiffChunkOK true true exAIFC i) /\ (exists i, formChunk exAIFC i /\ tagAt exAIFC (i + 8) = AIFF.T_COMM) /\
    unsupported (tagAt exAIFC 38).
Proof.
  split; [reflexivity|]. split; [vm_compute; discriminate|]. split; [vm_compute; discriminate|].
  assert (K : forall i, walk BigEndian u64 exAIFC (word BigEndian exAIFC 4) i -> i = 4 \/ i = 38 \/ i = 48 \/ i = 66).
  { intros i W. induction W as [|i W [->|[->|[->| ->]]] Hi]; [left; reflexivity|right; left; reflexivity|right; right; left; reflexivity|right; right; right; reflexivity|]. vm_compute in Hi. discriminate. }
  split; [|split].
  - intros i [W Hi]. destruct (K i W) as [->|[->|[->| ->]]]; [| | |vm_compute in Hi; discriminate]; clear; unfold aiffChunkOK; vm_compute; repeat split; intros; discriminate.
  - exists 4. split; [|reflexivity]. split; [constructor|reflexivity].
  - vm_compute. auto.
Qed.

(** ** Creative VOC *)
(** The blocks the reader looks at: a type byte and a 24-bit size at [p], the contents from [p + 4]. *)
Definition vocHead (b : list Z) (p : Z) : Z := word LittleEndian b p.
Inductive vocAt (b : list Z) : Z -> Prop :=
| VA_start : vocAt b 26
| VA_next p : vocAt b p -> p + 4 <= zlen b -> vocAt b (p + (4 + vocHead b p / 256)).
Definition vocBlockOK (b : list Z) (p : Z) : Prop :=
  (vocHead b p mod 256 = 1 -> p + 4 + 2 <= zlen b) /\ (vocHead b p mod 256 = 8 -> p + 4 + 4 <= zlen b) /\ (vocHead b p mod 256 = 9 -> p + 4 + 8 <= zlen b).
Lemma head_read b p : 0 <= p -> p + 4 <= zlen b -> valueOf LittleEndian (zfirstn 4 (zskipn p b)) = vocHead b p.
Proof. intros. unfold vocHead. now apply (word_read b p LittleEndian). Qed.
Definition vocKnown (s : VOC.vocSt) : Prop := (match VOC.vs_ext s with Some (ch, _) => 1 <= ch <= 2 | None => True end).
Lemma r_bpp {C} b q w ch (k : Z -> hP C) Q : 1 <= w <= 64 -> 0 < ch < 65536 -> (forall x, runs b q (k x) Q) -> runs b q (hbind (hlift (bppPCM w ch)) k) Q.
Proof.
  intros Hw Hc H. eapply r_ok; [apply bppPCM_ok; try lia|apply H]. assert (0 <= (w + 7) / 8 < 9) by (split; [apply Z.div_pos; lia|apply Z.div_lt_upper_bound; lia]). change (2 ^ 31) with 2147483648. set (k1 := (w + 7) / 8) in *. clearbody k1. nia.
Qed.
Lemma r_vocBlock b host p s : bytes_ok b = true -> 0 <= p -> p + 4 <= zlen b -> vocBlockOK b p -> vocKnown s ->
  runs b (p + 4) (VOC.vocBlock host s (vocHead b p mod 256) (vocHead b p / 256))
    (fun s' _ => vocKnown s' /\ (VOC.vs_fmt s <> None \/ vocHead b p mod 256 = 1 \/ vocHead b p mod 256 = 9 -> VOC.vs_fmt s' <> None)).
Proof.
  intros Hb Hp Hl (O1 & O8 & O9) HK. unfold VOC.vocBlock. set (ty := vocHead b p mod 256) in *. set (sz := vocHead b p / 256) in *.
  destruct (Z.eqb_spec ty 1) as [E1|E1].
  { specialize (O1 E1). unfold VOC.vocOld. destruct (VOC.vocFound s); [apply r_fail|]. r_u Hb. intros divisor q (-> & _ & D). r_u Hb. intros codec q (-> & _ & _).
    destruct (match VOC.vs_ext s with Some e => e | None => _ end) as [ch rate] eqn:EE.
    assert (1 <= ch <= 2). { unfold vocKnown in HK. destruct (VOC.vs_ext s) as [[c1 r1]|]; [assert (c1 = ch) as <- by congruence; exact HK|]. assert (1 = ch) as <- by congruence. lia. }
    r_if. apply r_bpp; [lia|lia|]. intros bpp. r_h. intros q1 q2 _. r_h. intros len q3 _. apply r_ret. split; [exact HK|]. cbn. discriminate. }
  destruct (Z.eqb_spec ty 8) as [E8|E8].
  { specialize (O8 E8). unfold VOC.vocExt. destruct (VOC.vocFound s) eqn:EF; [apply r_fail|]. r_u Hb. intros divisor q (-> & _ & D). r_u Hb. intros x q (-> & _ & _). r_u Hb. intros stereo q (-> & _ & _). apply r_ret.
    split; [unfold vocKnown; cbn; destruct (stereo =? 0); lia|]. cbn. intros [H|[H|H]]; [exact H|lia|lia]. }
  destruct (Z.eqb_spec ty 9) as [E9|E9]; [|apply r_ret; split; [exact HK|]; intros [H|[H|H]]; [exact H|lia|lia]].
  specialize (O9 E9). unfold VOC.vocNew. destruct (VOC.vocFound s); [apply r_fail|]. r_u Hb. intros rate q (-> & _ & _). r_t Hb. r_u Hb. intros ch q1 (-> & _ & C). change (2 ^ (8 * Z.of_nat 1)) with 256 in C.
  r_u Hb. intros code q1 (-> & _ & _). r_t Hb. unfold VOC.vocNewTail. r_if. r_h. intros p1 q1 _. cbv zeta.
  eapply r_bind with (P := fun _ _ => True).
  { destruct (code =? 0); [apply r_bpp; [lia|lia|]; intros; now apply r_ret|]. destruct (code =? 4); [apply r_bpp; [lia|lia|]; intros; now apply r_ret|].
    destruct (code =? 6); [now apply r_ret|]. destruct (code =? 7); [now apply r_ret|apply r_fail]. }
  intros fm q2 _. apply r_ret. split; [exact HK|]. cbn. discriminate.
Qed.

Theorem C57_voc_defined_partial :
  forall host b fuel, bytes_ok b = true -> 26 <= zlen b -> zlen b <= Z.of_nat fuel ->
    (forall p, vocAt b p -> p + 4 <= zlen b -> vocBlockOK b p) ->
    (exists p, vocAt b p /\ p + 4 <= zlen b /\ (vocHead b p mod 256 = 1 \/ vocHead b p mod 256 = 9)) ->
    exists r, VOC.vocOpen host fuel (mkFile b 0) = Ok r.
Proof.
  intros host b fuel Hb Hl Hf Hc (p0 & A0 & L0 & T0). apply (runs_open b _ (fun _ _ => True)). unfold VOC.vocOpen.
  eapply r_bind with (P := fun s _ => VOC.vs_fmt s <> None).
  2:{ intros s q Hs. destruct (VOC.vs_fmt s) eqn:E; [|congruence]. apply r_lift. eauto. }
  unfold VOC.vocRead. r_h. intros _ q ->.
  do 3 (eapply r_bind; [apply (r_tryU _ Hb); lia|]; intros ? q (_ & T & _); destruct (T ltac:(lia)) as [-> _]; clear T). change (20 + Z.of_nat 2 + Z.of_nat 2 + Z.of_nat 2) with 26.
  r_h. intros p q [-> ->]. r_h. intros len q [-> ->].
  (* a sound block lies ahead, or was found *)
  pose (snd := fun p => p + 4 <= zlen b /\ (vocHead b p mod 256 = 1 \/ vocHead b p mod 256 = 9)).
  assert (NN : forall p, 0 <= vocHead b p / 256). { intros p. pose proof (word_range LittleEndian b p Hb). unfold vocHead. apply Z.div_pos; lia. }
  assert (A : exists n, (fix ah n p := match n with O => snd p | S n => p + 4 <= zlen b /\ ah n (p + (4 + vocHead b p / 256)) end) n 26).
  { assert (G : forall p, vocAt b p -> forall n, (fix ah n p := match n with O => snd p | S n => p + 4 <= zlen b /\ ah n (p + (4 + vocHead b p / 256)) end) n p ->
      exists n, (fix ah n p := match n with O => snd p | S n => p + 4 <= zlen b /\ ah n (p + (4 + vocHead b p / 256)) end) n 26).
    { intros p A. induction A as [|p A IH HL]; intros n Hn; [now exists n|]. apply (IH (S n)). split; [exact HL|exact Hn]. }
    apply (G p0 A0 0%nat). split; assumption. }
  destruct A as [n0 A]. set (ah := fix ah n p := match n with O => snd p | S n => p + 4 <= zlen b /\ ah n (p + (4 + vocHead b p / 256)) end) in *.
  assert (G : forall fuel p s, vocAt b p -> 26 <= p -> zlen b - p <= Z.of_nat fuel -> vocKnown s -> (VOC.vs_fmt s <> None \/ exists n, ah n p) ->
    runs b p (VOC.vocLoop host fuel (zlen b) p s) (fun s' _ => VOC.vs_fmt s' <> None)).
  { clear Hf fuel n0 A. induction fuel as [|fuel IH]; intros p s Ap Hp Hf HK HA; cbn [VOC.vocLoop].
    - replace (p <? zlen b) with false by lia. apply r_ret. destruct HA as [HA|[[|n] HA]]; [exact HA|destruct HA; lia|destruct HA; lia].
    - destruct (Z.ltb_spec p (zlen b)); cbn [negb].
      2:{ apply r_ret. destruct HA as [HA|[[|n] HA]]; [exact HA|destruct HA; lia|destruct HA; lia]. }
      eapply r_bind; [apply r_tryU'; lia|]. change (Z.of_nat 4) with 4. intros h q [-> ->]. destruct (Z.leb_spec (p + 4) (zlen b)) as [H4|H4].
      + rewrite (head_read b p) by lia. replace (p + Z.min 4 (Z.max 0 (zlen b - p))) with (p + 4) by lia. eapply r_bind; [apply r_vocBlock; auto; lia|]. intros s' q' [HK' HF]. cbv zeta. r_h. intros _ q2 ->.
        specialize (NN p). apply IH; [now constructor|lia|lia|exact HK'|]. destruct HA as [HA|[[|n] HA]]; [left; auto|left; destruct HA as [_ HA]; auto|right; exists n; apply HA].
      + apply r_ret. destruct HA as [HA|[[|n] HA]]; [exact HA|destruct HA; lia|destruct HA; lia]. }
  apply G; [constructor|lia|lia|exact I|right; now exists n0].
Qed.
Print Assumptions C57_voc_defined_partial.
Definition exVOC : list Z := zrepeat 32 26 ++ [8; 4; 0; 0; 0; 0; 0; 1] ++ [1; 4; 0; 0; 165; 0; 1; 2] ++ [0].
Example C57_voc_example : bytes_ok exVOC = true /\ 26 <= zlen exVOC /\ zlen exVOC <= Z.of_nat 60 /\ (forall p, vocAt exVOC p -> p + 4 <= zlen exVOC -> vocBlockOK exVOC p) /\
  (exists p, vocAt exVOC p /\ p + 4 <= zlen exVOC /\ (vocHead exVOC p mod 256 = 1 \/ vocHead exVOC p mod 256 = 9)).
Proof.
  split; [reflexivity|]. split; [vm_compute; discriminate|]. split; [vm_compute; discriminate|].
  assert (K : forall p, vocAt exVOC p -> p = 26 \/ p = 34 \/ p = 42).
  { intros p A. induction A as [|p A [->|[->| ->]] L]; [left; reflexivity|right; left; reflexivity|right; right; reflexivity|]. vm_compute in L. now destruct L. }
  split.
  - intros p A L. destruct (K p A) as [->|[->| ->]]; [| |vm_compute in L; now destruct L]; clear; unfold vocBlockOK; vm_compute; repeat split; intros; discriminate.
  - exists 34. split; [|split; [vm_compute; discriminate|left; reflexivity]]. change 34 with (26 + (4 + vocHead exVOC 26 / 256)). constructor; [constructor|vm_compute; discriminate].
Qed.

(** ** Sample Vision *)
Lemma r_smpText b q n ty : 0 <= q -> 0 <= n -> q + n <= zlen b -> runs b q (SampleVision.smpText n ty) (fun _ q' => q' = q + n).
Proof.
  intros Hq Hn Hl. unfold SampleVision.smpText. r_h. intros d q' [-> ->]. rewrite got by lia. replace (Z.min n (Z.max 0 (zlen b - q))) with n by lia. rewrite Z.eqb_refl. apply r_ret. reflexivity.
Qed.
Lemma r_hrepeat b (p : hP unit) k n : (forall q, 0 <= q -> runs b q p (fun _ q' => q <= q' <= q + k)) -> 0 <= k -> forall q, 0 <= q -> runs b q (SampleVision.hrepeat n p) (fun _ q' => q <= q' <= q + Z.of_nat n * k).
Proof.
  intros Hp Hk. induction n as [|n IH]; intros q Hq; cbn [SampleVision.hrepeat]; [apply r_ret; lia|]. eapply r_bind; [apply Hp; exact Hq|]. intros u q1 H1. cbv beta in H1. eapply r_weak; [apply IH; lia|]. cbv beta. intros u2 q2 H2. lia.
Qed.
(** The audio data and the 207 bytes after it that are used are there. *)
Theorem C57_samplevision_defined_partial :
  forall b, bytes_ok b = true -> 116 <= zlen b -> 116 + u32 (2 * word LittleEndian b 112) + 207 <= zlen b -> exists r, SampleVision.smpRead (mkFile b 0) = Ok r.
Proof.
  intros b Hb Hl Hs. apply (runs_open b _ (fun _ _ => True)). unfold SampleVision.smpRead. r_h. intros _ q ->. r_h. intros magic q [-> ->]. rewrite got by lia. replace (Z.min 18 _) with 18 by lia. r_if. r_if.
  r_h. intros v q [-> ->]. change (0 + 18) with 18. rewrite got by lia. replace (Z.min 4 _) with 4 by lia. r_if. r_if. change (18 + 4) with 22.
  eapply r_bind; [apply r_smpText; lia|]. intros nm q ->. eapply r_bind; [apply r_smpText; lia|]. intros cm q ->. change (22 + 30 + 60) with 112.
  eapply r_bind with (P := fun _ _ => True); [|intros; now apply r_ret]. unfold SampleVision.smpTail. r_u Hb. intros count q (-> & -> & _). rewrite word_read by lia. r_h. intros p q [-> ->]. cbv zeta. change (112 + Z.of_nat 4) with 116.
  set (n := u32 _) in *. assert (0 <= n) by (unfold n, u32, uN; apply Z.mod_pos_bound; reflexivity). r_h. intros _ q ->.  r_t Hb.
  eapply r_bind; [apply (r_hrepeat b SampleVision.smpReadLoop 11); [|lia|lia]|]. { intros q Hq. unfold SampleVision.smpReadLoop. r_t Hb. r_t Hb. r_t Hb. r_t Hb. apply r_ret. lia. }
  intros u1 q1 H1. cbv beta in H1. eapply r_bind; [apply (r_hrepeat b SampleVision.smpReadMarker 14); [|lia|lia]|].
  { intros q Hq. unfold SampleVision.smpReadMarker. r_h. intros d q2 [-> ->]. pose proof (got b q 10 Hq ltac:(lia)). r_t Hb. apply r_ret. lia. }
  intros u2 q2 H2. cbv beta in H2. r_t Hb. r_u Hb. intros rate q3 _. right. unfold hbind, tryU, fread, hret. cbn [fbytes fpos rbind]. eexists _, _. split; [reflexivity|exact I].
Qed.
Print Assumptions C57_samplevision_defined_partial.
Example C57_samplevision_example : let b := SampleVision.smpMagic ++ SampleVision.smpVersion ++ zrepeat 32 90 ++ [2;0;0;0] ++ [1;2;3;4] ++ zrepeat 0 207 in
  bytes_ok b = true /\ 116 + u32 (2 * word LittleEndian b 112) + 207 <= zlen b.
Proof. cbv zeta. split; vm_compute; [reflexivity|discriminate]. Qed.

(** ** NIST SPHERE *)
(** [32; 45; 105] is " -i", [32; 45; 115] is " -s".  Every line the reader looks for that is there holds a number that is an int (and, for strings, a word after it). *)
Definition number (text key : list Z) : Prop := forall r, NIST.strstr (10 :: key ++ [32; 45; 105]) text = Some r -> exists v r', NIST.scanD r = Ok (Some (v, r')).
Definition wordIs (text key : list Z) : Prop := forall r, NIST.strstr (10 :: key ++ [32; 45; 115]) text = Some r -> exists v r' s, NIST.scanD r = Ok (Some (v, r')) /\ NIST.scanS r' = Some s.
Record nistOK (text : list Z) : Prop := {
  no_chan : number text NIST.K_chan; no_bytes : number text NIST.K_nbytes; no_sig : number text NIST.K_sig; no_rate : number text NIST.K_rate; no_count : number text NIST.K_count;
  no_coding : wordIs text NIST.K_coding; no_order : wordIs text NIST.K_order;
  (* bytes per sample, and per frame, that fit an int *)
  no_size : forall r1 r2 ch nb r1' r2', NIST.strstr (10 :: NIST.K_chan ++ [32; 45; 105]) text = Some r1 -> NIST.scanD r1 = Ok (Some (ch, r1')) ->
    NIST.strstr (10 :: NIST.K_nbytes ++ [32; 45; 105]) text = Some r2 -> NIST.scanD r2 = Ok (Some (nb, r2')) -> Z.abs nb < 2 ^ 27 /\ Z.abs (nb * ch) < 2 ^ 31;
  (* the line for the byte order is there *)
  no_order_there : NIST.strstr (10 :: NIST.K_order ++ [32; 45; 115]) text <> None }.
Lemma nistInt_ok text key old : number text key -> NIST.nistInt text key old = Ok None \/ exists v r r', NIST.nistInt text key old = Ok (Some (Some v)) /\ NIST.strstr (10 :: key ++ [32; 45; 105]) text = Some r /\ NIST.scanD r = Ok (Some (v, r')).
Proof. intros H. unfold NIST.nistInt. destruct (NIST.strstr _ text) as [r|] eqn:E; [|now left]. destruct (H r E) as (v & r' & E2). right. exists v, r, r'. rewrite E2. auto. Qed.
Lemma nistStr_ok text key a c : wordIs text key -> NIST.nistStr text key a c = Ok None /\ NIST.strstr (10 :: key ++ [32; 45; 115]) text = None \/ exists v s, NIST.nistStr text key a c = Ok (Some (Some v, Some s)).
Proof. intros H. unfold NIST.nistStr. destruct (NIST.strstr _ text) as [r|] eqn:E; [|now left]. destruct (H r E) as (v & r' & s & -> & E'). right. exists v, s. cbn [rbind]. rewrite E'. reflexivity. Qed.
Lemma nistParse_defined host text : nistOK text -> exists r, NIST.nistParse host text = Ok r.
Proof.
  intros [H1 H2 H3 H4 H5 H6 H7 HS HO]. unfold NIST.nistParse. change (2 ^ 27) with 134217728 in HS. change (2 ^ 31) with 2147483648 in HS.
  destruct (nistInt_ok text NIST.K_chan None H1) as [->|(ch & r1 & r1' & -> & E1 & E1')]; [eexists; reflexivity|]. cbn [rbind NIST.known]. destruct (Z.ltb_spec ch 1) as [|Hch]; [eexists; reflexivity|].
  destruct (nistInt_ok text NIST.K_nbytes None H2) as [->|(nb & r2 & r2' & -> & E2 & E2')]; [eexists; reflexivity|]. cbn [rbind NIST.known].
  destruct (HS r1 r2 ch nb r1' r2' E1 E1' E2 E2') as [B1 B2].
  match goal with |- context [rbind ?X _] => assert (EX : exists x, X = Ok x) end.
  { destruct (nb =? 1); [eexists; reflexivity|]. unfold ck32 at 1, inS. change (2 ^ (32 - 1)) with 2147483648. replace (_ && _) with true by lia. cbn [rbind].
    unfold bppPCM, ck32, inS. change (2 ^ (32 - 1)) with 2147483648.
    assert (Q : Z.abs (Z.quot (nb * 8 + 7) 8) <= Z.abs nb).
    { destruct (Z.le_gt_cases 0 nb).
      - rewrite Z.quot_div_nonneg by lia. replace (nb * 8 + 7) with (7 + nb * 8) by lia. rewrite Z.div_add by lia. change (7 / 8) with 0. lia.
      - replace (nb * 8 + 7) with (- (- nb * 8 - 7)) by lia. rewrite Z.quot_opp_l by lia. rewrite Z.quot_div_nonneg by lia.
        replace (- nb * 8 - 7) with (1 + (- nb - 1) * 8) by lia. rewrite Z.div_add by lia. change (1 / 8) with 0. lia. }
    set (k := Z.quot _ 8) in *. clearbody k. assert (- 2147483648 < k * ch < 2147483648).
    { apply (proj1 (Z.abs_lt (k * ch) 2147483648)). eapply Z.le_lt_trans; [|exact B2]. rewrite !Z.abs_mul. apply Z.mul_le_mono_nonneg_r; [lia|exact Q]. }
    set (m := k * ch) in *. clearbody m. replace ((- (2147483648) <=? m) && (m <? 2147483648)) with true by lia. cbn [rbind]. eexists; reflexivity. }
  destruct EX as [[[comp w] bpp] ->]. cbn [rbind].
  assert (EC : NIST.nistReadCoding text comp w (Some ch) = Ok None \/ exists comp' w' v s, NIST.nistReadCoding text comp w (Some ch) = Ok (Some (comp', w', Some v, s))).
  { unfold NIST.nistReadCoding. destruct (nistStr_ok text NIST.K_coding (Some ch) None H6) as [[-> _]|(v & s & ->)]; cbn [rbind NIST.known]; [right; eauto 6|].
    destruct (teq s _); [right; eauto 6|]. destruct (_ || _); [right; eauto 6|]. destruct (teq s _); [right; eauto 6|now left]. }
  destruct EC as [->|(comp' & w' & v & s & ->)]; [eexists; reflexivity|]. cbn [rbind].
  assert (EO : exists o v', NIST.nistReadOrder host text comp' w' (Some v) s = Ok (Some (Some o, Some v'))).
  { unfold NIST.nistReadOrder. destruct (nistStr_ok text NIST.K_order (Some v) s H7) as [[_ E]|(n & x & ->)]; [contradiction|]. cbn [rbind NIST.known]. destruct (1 <? n); cbn [NIST.known rbind]; eauto. }
  destruct EO as (o & v' & ->). cbn [rbind].
  assert (ES : NIST.nistReadSig text comp' w' nb (Some v') = Ok None \/ exists w2 v2, NIST.nistReadSig text comp' w' nb (Some v') = Ok (Some (w2, Some v2))).
  { unfold NIST.nistReadSig. destruct (nistInt_ok text NIST.K_sig (Some v') H3) as [->|(x & _ & _ & -> & _)]; cbn [rbind NIST.known]; [right; eauto|]. destruct (_ || _); [now left|right; eauto]. }
  destruct ES as [->|(w2 & v2 & ->)]; [eexists; reflexivity|]. cbn [rbind].
  destruct (nistInt_ok text NIST.K_rate (Some v2) H4) as [->|(rate & _ & _ & -> & _)]; [eexists; reflexivity|]. cbn [rbind NIST.known]. destruct (rate <=? 0); [eexists; reflexivity|].
  destruct (nistInt_ok text NIST.K_count (Some rate) H5) as [->|(count & _ & _ & -> & _)]; [eexists; reflexivity|]. cbn [rbind NIST.known]. destruct (_ || _); eexists; reflexivity.
Qed.
Theorem C57_nist_defined_partial :
  forall host b, nistOK (SampleVision.cstr (zfirstn 1024 b)) -> exists r, NIST.nistRead host (mkFile b 0) = Ok r.
Proof.
  intros host b H. apply (runs_open b _ (fun _ _ => True)). unfold NIST.nistRead. r_h. intros _ q ->. r_h. intros h q [-> ->]. change (zskipn 0 b) with b. r_if. r_if.
  destruct (nistParse_defined host _ H) as [r E]. eapply r_ok; [exact E|]. destruct r as [[fm count]|]; [|apply r_fail]. r_h. intros len q _. now apply r_ret.
Qed.
Print Assumptions C57_nist_defined_partial.
Definition exNIST : list Z := SampleVision.cstr (zfirstn 1024 (NIST.nistInit (mkFmt 44100 TwosComp 16 2 BigEndian CNone 1 4))).
Example C57_nist_example : nistOK exNIST.
Proof.
  assert (K : forall key r, NIST.strstr (10 :: key ++ [32; 45; 105]) exNIST = Some r -> match NIST.strstr (10 :: key ++ [32; 45; 105]) exNIST with Some r => match NIST.scanD r with Ok (Some _) => true | _ => false end | None => true end = true -> exists v r', NIST.scanD r = Ok (Some (v, r'))).
  { intros key r -> H. destruct (NIST.scanD r) as [[[v r']|]| | |]; try discriminate. eauto. }
  assert (K2 : forall key r, NIST.strstr (10 :: key ++ [32; 45; 115]) exNIST = Some r -> match NIST.strstr (10 :: key ++ [32; 45; 115]) exNIST with Some r => match NIST.scanD r with Ok (Some (_, r')) => match NIST.scanS r' with Some _ => true | _ => false end | _ => false end | None => true end = true -> exists v r' s, NIST.scanD r = Ok (Some (v, r')) /\ NIST.scanS r' = Some s).
  { intros key r -> H. destruct (NIST.scanD r) as [[[v r']|]| | |]; try discriminate. destruct (NIST.scanS r') as [s|] eqn:E; [|discriminate]. eauto. }
  split; try (intros r E; apply (K _ r E); vm_compute; reflexivity); try (intros r E; apply (K2 _ r E); vm_compute; reflexivity).
  - intros r1 r2 ch nb r1' r2' E1 S1 E2 S2.
    assert (V : forall key r v r' x, NIST.strstr (10 :: key ++ [32; 45; 105]) exNIST = Some r -> NIST.scanD r = Ok (Some (v, r')) -> match NIST.strstr (10 :: key ++ [32; 45; 105]) exNIST with Some r => match NIST.scanD r with Ok (Some (v, _)) => Some v | _ => None end | None => None end = Some x -> v = x).
    { intros key r v r' x -> -> H. congruence. }
    assert (ch = 2) as -> by (apply (V _ _ _ _ 2 E1 S1); vm_compute; reflexivity). assert (nb = 2) as -> by (apply (V _ _ _ _ 2 E2 S2); vm_compute; reflexivity). split; reflexivity.
  - vm_compute. discriminate.
Qed.

(** ** WAVE *)
(** Chunk [i] has its tag at [p = i + 8] (kept in 32 bits), its size at [p + 4] and its contents from [p + 8]. *)
Definition riffChunk (b : list Z) (i : Z) : Prop := walk LittleEndian u32 b (word LittleEndian b 4) i /\ i < word LittleEndian b 4.
Definition half (b : list Z) (p : Z) : Z := le_val (zfirstn 2 (zskipn p b)).
(** The format chunk at [p]: long enough for the kind of samples it announces, and with numbers the reader can work with. *)
Definition fmtOK (debug : bool) (b : list Z) (p : Z) : Prop :=
  p + 16 <= zlen b /\
  (half b p = 2 -> p + 22 <= zlen b /\ half b (p + 20) <= 256 /\ (debug = true -> 7 <= half b (p + 20) <= 255)) /\
  (half b p = 0x11 -> p + 20 <= zlen b /\ (half b (p + 18) + 14) / 8 * 4 * half b (p + 2) < 2 ^ 31) /\
  (half b p = 0xfffe -> p + 40 <= zlen b).
(** The entries of a list from [p] up to [e]: each has its tag and size; those the reader keeps, whose tags are in [kept], are
    in the file and at least [least] bytes long. *)
Inductive entries (kept : list (list Z)) (least : Z) (b : list Z) (e : Z) : Z -> Prop :=
| EN_end p : e <= p -> entries kept least b e p
| EN_entry p : p + 8 <= zlen b -> word LittleEndian b (p + 4) < 2 ^ 32 - 1 ->
    (In (tagAt b p) kept -> least <= word LittleEndian b (p + 4) /\ p + 8 + word LittleEndian b (p + 4) <= zlen b) ->
    entries kept least b e (p + 8 + word LittleEndian b (p + 4) + word LittleEndian b (p + 4) mod 2) ->
    entries kept least b e p.
Definition riffChunkOK (debug : bool) (b : list Z) (i : Z) : Prop :=
  let p := u32 (i + 8) in let tag := tagAt b p in let n := word LittleEndian b (p + 4) in let start := p + 8 in
  i < nextIndex u32 i n /\
  (tag = WAVE.T_fmt -> fmtOK debug b start) /\
  (tag = WAVE.T_fact -> start + 4 <= zlen b) /\
  (tag = WAVE.T_plst -> start + 4 <= zlen b) /\
  (tag = WAVE.T_cue -> start + 4 <= zlen b /\ (word LittleEndian b start < 2 ^ 31 -> start + 4 + 24 * word LittleEndian b start <= zlen b)) /\
  (tag = WAVE.T_LIST \/ tag = WAVE.T_list ->
     (tagAt b start = WAVE.T_adtl -> entries [WAVE.T_labl; WAVE.T_note] 4 b (start + 4 + u32 (n - 4)) (start + 4)) /\
     (tagAt b start = WAVE.T_INFO -> entries [WAVE.T_IART; WAVE.T_INAM; WAVE.T_ICOP; WAVE.T_ICMT; WAVE.T_ICRD; WAVE.T_ISFT] 0 b (start + 4 + u32 (n - 4)) (start + 4))).

Lemma tagAt_in b p t : 0 <= p -> t <> [0;0;0;0] -> tagAt b p = t -> p + 4 <= zlen b.
Proof.
  intros Hp Ht. unfold tagAt. pose proof (got b p 4 Hp ltac:(lia)) as L. set (d := zfirstn 4 _) in *. destruct (Z.eqb_spec (zlen d) 4) as [E|E]; [lia|congruence].
Qed.
Lemma teq_eq a c : teq a c = true -> a = c.
Proof. unfold teq. destruct (list_eq_dec Z.eq_dec a c); congruence. Qed.
Lemma half_read b q : valueOf LittleEndian (zfirstn (Z.of_nat 2) (zskipn q b)) = half b q. Proof. reflexivity. Qed.
Lemma r_present {A} b q x (k : Z -> hP A) Q : runs b q (k x) Q -> runs b q (hbind (WAVE.present (Some x)) k) Q.
Proof. intros H. exact H. Qed.
Lemma r_fmtPCM b q s rate sf w ch : 0 <= w <= 64 -> 0 < ch < 65536 -> runs b q (WAVE.fmtPCM s rate sf w ch) (fun _ _ => True).
Proof.
  intros Hw Hc. unfold WAVE.fmtPCM, bppPCM, ck32, inS. rewrite Z.quot_div_nonneg by lia. assert (0 <= (w + 7) / 8 < 9) by (split; [apply Z.div_pos; lia|apply Z.div_lt_upper_bound; lia]).
  set (k := (w + 7) / 8) in *. clearbody k. change (2 ^ (32 - 1)) with 2147483648. assert (0 <= k * ch < 2147483648) by nia. set (m := k * ch) in *. clearbody m. replace ((- (2147483648) <=? m) && (m <? 2147483648)) with true by lia.
  eapply r_ok; [reflexivity|]. now apply r_ret.
Qed.
Lemma r_coefs b n : bytes_ok b = true -> forall q, 0 <= q -> runs b q (WAVE.readCoefs n) (fun _ q' => 0 <= q').
Proof.
  intros Hb. induction n as [|n IH]; intros q Hq; cbn [WAVE.readCoefs]; [now apply r_ret|]. r_t Hb. r_t Hb. eapply r_bind; [apply IH; lia|]. intros r q' H'. now apply r_ret.
Qed.
Lemma r_fmt b q (B : Build) host s : bytes_ok b = true -> 0 <= q -> fmtOK B b q -> runs b q (WAVE.parseFormat host s) (fun _ _ => True).
Proof.
  intros Hb Hq (L16 & H2 & H11 & HX). unfold WAVE.parseFormat. r_u Hb. intros tag q1 (-> & E & Rt). rewrite half_read in E. subst tag.
  r_u Hb. intros ch q1 (-> & E & C). rewrite half_read in E. subst ch. change (2 ^ (8 * Z.of_nat 2)) with 65536 in *. change (Z.of_nat 2) with 2 in *.
  eapply r_bind; [apply (r_tryU _ Hb); lia|]. intros rate q1 (_ & T & _). destruct (T ltac:(lia)) as [-> [r ->]]. clear T.
  eapply r_bind; [apply (r_tryU _ Hb); lia|]. intros av q1 (_ & T & _). destruct (T ltac:(lia)) as [-> _]. clear T.
  eapply r_bind; [apply (r_tryU _ Hb); lia|]. intros ba q1 (_ & T & _). destruct (T ltac:(lia)) as [-> [a ->]]. clear T. r_if.
  apply r_present.
  change (Z.of_nat 4) with 4. change (Z.of_nat 2) with 2. replace (q + 2 + 2 + 4 + 4 + 2) with (q + 14) by lia. assert (Ch : 0 < half b (q + 2) < 65536) by lia. set (ch := half b (q + 2)) in *.
  r_if. { r_u Hb. intros bits q1 (-> & _ & W). r_if. unfold WAVE.fmtInt. apply r_fmtPCM; lia. }
  r_if; [now apply r_ret|]. r_if; [now apply r_ret|].
  r_if. { r_u Hb. intros bits q1 (-> & _ & W). unfold WAVE.fmtFloat. r_if; apply r_fmtPCM; lia. }
  r_if. { destruct (H2 ltac:(lia)) as (L22 & N & D). unfold WAVE.fmtMS.
    eapply r_bind; [apply (r_tryU _ Hb); lia|]. intros x q1 (_ & T & _). destruct (T ltac:(lia)) as [-> _]. clear T. eapply r_bind; [apply (r_tryU _ Hb); lia|]. intros y q1 (_ & T & _). destruct (T ltac:(lia)) as [-> _]. clear T.
    change (Z.of_nat 2) with 2. r_u Hb. intros spb q1 (-> & _ & _). change (Z.of_nat 2) with 2. r_u Hb. intros n q1 (-> & E & Rn). rewrite half_read in E. replace (q + 14 + 2 + 2 + 2) with (q + 20) in E by lia. subst n.
    eapply r_bind; [apply r_assert; destruct B; [right|now left]|].
    { specialize (D eq_refl). lia. }
    intros u q1 ->. replace (256 <? half b (q + 20)) with false by lia. eapply r_bind; [apply r_coefs; [exact Hb|lia]|]. intros cs q1 Hq1.
    apply r_present. now apply r_ret. }
  r_if. { destruct (H11 ltac:(lia)) as (L20 & N). unfold WAVE.fmtIMA. r_u Hb. intros x q1 (-> & _ & _). change (Z.of_nat 2) with 2.
    eapply r_bind; [apply (r_tryU _ Hb); lia|]. intros y q1 (_ & T & _). destruct (T ltac:(lia)) as [-> _]. clear T. change (Z.of_nat 2) with 2. r_u Hb. intros spb q1 (-> & E & Rn). rewrite half_read in E. replace (q + 14 + 2 + 2) with (q + 18) in E by lia. subst spb.
    fold ch in N. assert (M0 : 0 <= (half b (q + 18) + 14) / 8 * 4 * ch) by (assert (0 <= (half b (q + 18) + 14) / 8) by (apply Z.div_pos; lia); nia).
    change (2 ^ 31) with 2147483648 in N. set (m := _ * ch) in *. clearbody m. eapply r_ok with (a := m). { unfold ck32, inS. change (2 ^ (32 - 1)) with 2147483648. replace ((- (2147483648) <=? m) && (m <? 2147483648)) with true by lia. reflexivity. }
    apply r_present. now apply r_ret. }
  r_if.
  specialize (HX ltac:(lia)). unfold WAVE.fmtExt.
  eapply r_bind; [apply (r_tryU _ Hb); lia|]. intros bits q1 (_ & T & V). destruct (T ltac:(lia)) as [-> [xb ->]]. destruct (V xb eq_refl) as [_ Vb]. clear T V.
  eapply r_bind; [apply (r_tryU _ Hb); lia|]. intros y q1 (_ & T & _). destruct (T ltac:(lia)) as [-> _]. clear T.
  eapply r_bind; [apply (r_tryU _ Hb); lia|]. intros valid q1 (_ & T & V). destruct (T ltac:(lia)) as [-> [xv ->]]. destruct (V xv eq_refl) as [_ Vv]. clear T V.
  eapply r_bind; [apply (r_tryU _ Hb); lia|]. intros z q1 (_ & T & _). destruct (T ltac:(lia)) as [-> _]. clear T. change (Z.of_nat 2) with 2. change (Z.of_nat 4) with 4.
  r_h. intros g q1 [Eg ->]. assert (Lg : zlen g = 16) by (rewrite Eg, got; lia). rewrite Lg. change (negb (16 =? 16)) with false. cbv iota. clear Eg.
  r_if. { apply r_present. r_if.
    apply r_present. unfold WAVE.fmtInt. apply r_fmtPCM; [|lia]. destruct (_ && _) eqn:E; lia. }
  r_if. { apply r_present. unfold WAVE.fmtFloat. r_if; apply r_fmtPCM; lia. }
  r_if; [now apply r_ret|]. r_if; now apply r_ret.
Qed.
Lemma r_cues b n : bytes_ok b = true -> forall q, 0 <= q -> q + 24 * Z.of_nat n <= zlen b -> runs b q (WAVE.parseCueEntries n) (fun _ _ => True).
Proof.
  intros Hb. induction n as [|n IH]; intros q Hq Hl; cbn [WAVE.parseCueEntries]; [now apply r_ret|]. r_u Hb. intros id q1 (-> & _ & _). change (Z.of_nat 4) with 4.
  do 4 (eapply r_bind; [apply (r_tryU _ Hb); lia|]; let x := fresh "x" in let q1 := fresh "q" in let T := fresh "T" in intros x q1 (_ & T & _); destruct (T ltac:(lia)) as [-> _]; clear T; change (Z.of_nat 4) with 4).
  r_u Hb. intros pos q1 (-> & _ & _). change (Z.of_nat 4) with 4. eapply r_bind; [apply IH; lia|]. intros r q1 _. now apply r_ret.
Qed.
(** The tag and the size of an entry. *)
Lemma r_head {A} b p (k : list Z -> Z -> hP A) Q : bytes_ok b = true -> 0 <= p -> p + 8 <= zlen b ->
  runs b (p + 8) (k (tagAt b p) (word LittleEndian b (p + 4))) Q ->
  runs b p (hbind readTag (fun t => hbind (readU LittleEndian 4) (fun n => k t n))) Q.
Proof.
  intros Hb Hp Hl H. r_h. intros t q (-> & _ & T & _). rewrite (T ltac:(lia)). r_u Hb. intros n q1 (-> & -> & _). rewrite word_read by lia. change (Z.of_nat 4) with 4. replace (p + 4 + 4) with (p + 8) by lia. exact H.
Qed.
Lemma r_pad b q n : runs b q (if n mod 2 =? 0 then hret tt else hskip 1) (fun _ q' => q' = q + n mod 2).
Proof.
  pose proof (Z.mod_pos_bound n 2 ltac:(lia)). destruct (Z.eqb_spec (n mod 2) 0) as [->|E]; [apply r_ret; lia|]. eapply r_weak; [apply r_skip|]. cbv beta. intros _ q' ->. lia.
Qed.
Lemma r_adtl b e : bytes_ok b = true -> forall p, entries [WAVE.T_labl; WAVE.T_note] 4 b e p -> forall fuel s, 0 <= p -> Z.max 0 (zlen b - p) < Z.of_nat fuel -> runs b p (WAVE.adtlLoop fuel e s) (fun _ _ => True).
Proof.
  intros Hb p W. induction W as [p He|p H8 Hm Hk W IH]; intros fuel s Hp Hf.
  - destruct fuel; [lia|]. cbn [WAVE.adtlLoop]. r_h. intros x q [-> ->]. replace (p <? e) with false by lia. now apply r_ret.
  - destruct fuel as [|fuel]; [lia|]. cbn [WAVE.adtlLoop]. r_h. intros x q [-> ->]. r_if; [now apply r_ret|]. apply r_head; auto. pose proof (word_range LittleEndian b (p + 4) Hb) as Rn. set (n := word LittleEndian b (p + 4)) in *.
    change (2 ^ 32) with 4294967296 in *. pose proof (Z.mod_pos_bound n 2 ltac:(lia)) as Pn.
    destruct (teq (tagAt b p) WAVE.T_labl || teq (tagAt b p) WAVE.T_note) eqn:ET.
    + destruct Hk as [K1 K2]. { apply orb_prop in ET as [ET|ET]; apply teq_eq in ET; rewrite ET; cbn; auto. }
      r_u Hb. intros id q (-> & _ & _). change (Z.of_nat 4) with 4. r_h. intros d q [Ed ->]. assert (Ld : zlen d = n - 4). { rewrite Ed. unfold u32. rewrite uN_small by (change (2 ^ 32) with 4294967296; lia). rewrite got by lia. lia. }
      rewrite Ld. eapply r_bind; [apply r_pad|]. intros u q ->. replace (p + 8 + 4 + (n - 4) + n mod 2) with (p + 8 + n + n mod 2) by lia. apply IH; lia.
    + eapply r_bind; [apply r_skip|]. intros u q ->. unfold u32. rewrite uN_small by (change (2 ^ 32) with 4294967296; lia). replace (p + 8 + (n + n mod 2)) with (p + 8 + n + n mod 2) by lia. apply IH; lia.
Qed.
Lemma miscType_in t ty : WAVE.waveMiscType t = Some ty -> In t [WAVE.T_IART; WAVE.T_INAM; WAVE.T_ICOP; WAVE.T_ICMT; WAVE.T_ICRD; WAVE.T_ISFT].
Proof.
  unfold WAVE.waveMiscType. intros H. assert (K : forall t', In t' [WAVE.T_IART; WAVE.T_INAM; WAVE.T_ICOP; WAVE.T_ICMT; WAVE.T_ICRD; WAVE.T_ISFT] -> teq t t' = true -> In t [WAVE.T_IART; WAVE.T_INAM; WAVE.T_ICOP; WAVE.T_ICMT; WAVE.T_ICRD; WAVE.T_ISFT]).
  { intros t' HI E. apply teq_eq in E. now rewrite E. }
  destruct (teq t WAVE.T_IART) eqn:E1; [apply (K _ (or_introl eq_refl) E1)|]. destruct (teq t WAVE.T_INAM) eqn:E2; [apply (K _ (or_intror (or_introl eq_refl)) E2)|].
  destruct (teq t WAVE.T_ICOP) eqn:E3; [apply (K _ (or_intror (or_intror (or_introl eq_refl))) E3)|]. destruct (teq t WAVE.T_ICMT) eqn:E4; [apply (K _ (or_intror (or_intror (or_intror (or_introl eq_refl)))) E4)|].
  destruct (teq t WAVE.T_ICRD) eqn:E5; [apply (K _ (or_intror (or_intror (or_intror (or_intror (or_introl eq_refl))))) E5)|]. destruct (teq t WAVE.T_ISFT) eqn:E6; [apply (K _ (or_intror (or_intror (or_intror (or_intror (or_intror (or_introl eq_refl)))))) E6)|]. discriminate.
Qed.
Lemma r_info b e : bytes_ok b = true -> forall p, entries [WAVE.T_IART; WAVE.T_INAM; WAVE.T_ICOP; WAVE.T_ICMT; WAVE.T_ICRD; WAVE.T_ISFT] 0 b e p -> forall fuel s, 0 <= p -> Z.max 0 (zlen b - p) < Z.of_nat fuel -> runs b p (WAVE.infoLoop fuel e s) (fun _ _ => True).
Proof.
  intros Hb p W. induction W as [p He|p H8 Hm Hk W IH]; intros fuel s Hp Hf.
  - destruct fuel; [lia|]. cbn [WAVE.infoLoop]. r_h. intros x q [-> ->]. replace (p <? e) with false by lia. now apply r_ret.
  - destruct fuel as [|fuel]; [lia|]. cbn [WAVE.infoLoop]. r_h. intros x q [-> ->]. r_if; [now apply r_ret|]. apply r_head; auto. pose proof (word_range LittleEndian b (p + 4) Hb) as Rn. set (n := word LittleEndian b (p + 4)) in *.
    change (2 ^ 32) with 4294967296 in *. pose proof (Z.mod_pos_bound n 2 ltac:(lia)) as Pn.
    eapply r_bind with (P := fun _ q => q = p + 8 + n).
    { destruct (WAVE.waveMiscType _) as [ty|] eqn:ET.
      - destruct (Hk (miscType_in _ _ ET)) as [_ K2]. r_h. intros d q [Ed ->]. assert (Ld : zlen d = n) by (rewrite Ed, got by lia; lia). apply r_ret. lia.
      - r_h. intros u q ->. apply r_ret. lia. }
    intros s' q ->. eapply r_bind; [apply r_pad|]. intros u q ->. apply IH; lia.
Qed.
Theorem C57_wave_defined_partial :
  forall (B : Build) host b fuel, bytes_ok b = true -> 12 <= zlen b -> word LittleEndian b 4 <= Z.of_nat fuel ->
    (B = Debug -> tagAt b 0 = WAVE.T_RIFF /\ tagAt b 8 = WAVE.T_WAVE) ->
    (forall i, riffChunk b i -> riffChunkOK B b i) ->
    exists r, WAVE.waveOpen host fuel (mkFile b 0) = Ok r.
Proof.
  intros B host b fuel Hb Hl Hf HD Hc. apply (runs_open b _ (fun _ _ => True)). unfold WAVE.waveOpen.
  eapply r_bind with (P := fun _ _ => True). 2:{ intros s q _. destruct (WAVE.waveParsed s); [now apply r_ret|apply r_fail]. }
  unfold WAVE.waveRead. r_h. intros _ q ->. r_h. intros t q0 (-> & _ & Hq & _). rewrite (Hq ltac:(lia)). clear Hq. change (0 + 4) with 4.
  eapply r_bind; [apply (r_tryU _ Hb); lia|]. change (Z.of_nat 4) with 4. intros size q1 (_ & T & V). destruct (T ltac:(lia)) as [-> [x ->]]. destruct (V x eq_refl) as [Ex _]. clear T V. change 4 with (Z.of_nat 4) in Ex at 1. rewrite word_read in Ex by lia. subst x. change (4 + 4) with 8.
  r_h. intros form q2 (-> & _ & Hq & _). rewrite (Hq ltac:(lia)). clear Hq. change (8 + 4) with 12.
  eapply r_bind; [apply r_assert; destruct B; [right; rewrite (proj1 (HD eq_refl)); apply teq_refl|now left]|]. intros u q3 ->.
  eapply r_bind; [apply r_assert; destruct B; [right; rewrite (proj2 (HD eq_refl)); apply teq_refl|now left]|]. intros u' q4 ->.
  apply r_present.
  change 12 with (u32 (4 + 8)). eapply r_weak; [apply (r_chunkLoop b LittleEndian u32 (word LittleEndian b 4)) with (I := fun _ _ => True)|auto].
  - intros x. unfold u32, uN. apply Z.mod_pos_bound. reflexivity.
  - intros i s q W Hi _ p Q1 Q2 Q3. assert (Hp : 0 <= p) by (unfold p, u32, uN; apply Z.mod_pos_bound; reflexivity). pose proof (Hc i (conj W Hi)) as OK. unfold riffChunkOK in OK. fold p in OK. cbv zeta in OK. destruct OK as (_ & Hfmt & Hfact & Hplst & Hcue & Hlist).
    set (tag := tagAt b p) in *. set (n := word LittleEndian b (p + 4)) in *. unfold WAVE.waveChunk.
    destruct (teq tag WAVE.T_fmt) eqn:E1. { apply teq_eq in E1. specialize (Hfmt E1). rewrite (Q2 ltac:(destruct Hfmt; lia)). apply r_fmt; auto. lia. } clear E1 Hfmt.
    destruct (teq tag WAVE.T_data). { destruct (WAVE.wv_fmt s); [|apply r_fail]. unfold WAVE.parseData. r_h. intros x q' _. now apply r_ret. }
    destruct (teq tag WAVE.T_inst); [now apply r_ret|].
    destruct (teq tag WAVE.T_fact) eqn:E1. { apply teq_eq in E1. specialize (Hfact E1). rewrite (Q2 ltac:(lia)). unfold WAVE.parseFact. r_u Hb. intros x q' _. now apply r_ret. } clear E1 Hfact.
    destruct (teq tag WAVE.T_cue) eqn:E1.
    { apply teq_eq in E1. destruct (Hcue E1) as [L4 Hn]. rewrite (Q2 ltac:(lia)). unfold WAVE.parseCues. r_u Hb. intros c q' (-> & -> & Rc). rewrite word_read by lia. rewrite word_read in Rc by lia. change (Z.of_nat 4) with 4 in *. set (c := word LittleEndian b (p + 8)) in *. r_if.
      change (2 ^ 31) with 2147483648 in *. eapply r_bind; [apply r_cues; [exact Hb|lia|]|]. { rewrite Z2Nat.id by lia. specialize (Hn ltac:(lia)). lia. } intros ms q' _. now apply r_ret. } clear E1 Hcue.
    destruct (teq tag WAVE.T_LIST || teq tag WAVE.T_list) eqn:E1.
    { assert (TL : tag = WAVE.T_LIST \/ tag = WAVE.T_list) by (apply orb_prop in E1 as [E|E]; apply teq_eq in E; auto). destruct (Hlist TL) as [HA HI]. clear Hlist E1.
      unfold WAVE.parseList. r_h. intros t q' (Et & T1 & T2 & T3). r_h. intros y q8 [-> ->]. r_h. intros len q8 [-> ->]. pose proof (zlen_nonneg b).
      assert (IN : forall t', t' <> [0;0;0;0] -> t = t' -> t' = tagAt b (p + 8) /\ q' = p + 8 + 4).
      { intros t' N0 Et'. assert (q + 4 <= zlen b) by (apply (tagAt_in b q t'); [lia|exact N0|congruence]). assert (p + 8 <= zlen b) by lia. pose proof (Q2 H1). subst q. rewrite (T2 H0). split; congruence. }
      destruct (teq t WAVE.T_adtl) eqn:E1. { apply teq_eq in E1. destruct (IN WAVE.T_adtl ltac:(discriminate) E1) as [Et' ->]. apply r_adtl; auto; lia. } clear E1.
      destruct (teq t WAVE.T_INFO) eqn:E1; [|now apply r_ret]. apply teq_eq in E1. destruct (IN WAVE.T_INFO ltac:(discriminate) E1) as [Et' ->]. apply r_info; auto; lia. }
    destruct (teq tag WAVE.T_INST); [now apply r_ret|].
    destruct (teq tag WAVE.T_plst) eqn:E9. { apply teq_eq in E9. specialize (Hplst E9). rewrite (Q2 ltac:(lia)). unfold WAVE.parsePlayList. r_u Hb. intros x q' _. now apply r_ret. }
    now apply r_ret.
  - intros i W Hi. apply (Hc i (conj W Hi)).
  - constructor.
  - exact I.
  - lia.
Qed.
Print Assumptions C57_wave_defined_partial.
Definition exWAVE : list Z :=
  WAVE.T_RIFF ++ VOC.le4 70 ++ WAVE.T_WAVE ++ WAVE.T_LIST ++ VOC.le4 16 ++ WAVE.T_INFO ++ WAVE.T_INAM ++ VOC.le4 3 ++ [65; 66; 0; 0] ++
  WAVE.T_fmt ++ VOC.le4 16 ++ VOC.le2 1 ++ VOC.le2 2 ++ VOC.le4 44100 ++ VOC.le4 176400 ++ VOC.le2 4 ++ VOC.le2 16 ++ WAVE.T_data ++ VOC.le4 4 ++ [1; 2; 3; 4].
Example C57_wave_example : bytes_ok exWAVE = true /\ 12 <= zlen exWAVE /\ word LittleEndian exWAVE 4 <= Z.of_nat 70 /\
    tagAt exWAVE 0 = WAVE.T_RIFF /\ tagAt exWAVE 8 = WAVE.T_WAVE /\ (forall i, riffChunk exWAVE i -> riffChunkOK true exWAVE i).
Proof.
  split; [reflexivity|]. split; [vm_compute; discriminate|]. split; [vm_compute; discriminate|]. split; [reflexivity|]. split; [reflexivity|].
  assert (K : forall i, walk LittleEndian u32 exWAVE (word LittleEndian exWAVE 4) i -> i = 4 \/ i = 28 \/ i = 52 \/ i = 64 \/ i = 72).
  { intros i W. induction W as [|i W [->|[->|[->|[->| ->]]]] Hi]; [left; reflexivity|right; left; reflexivity|right; right; left; reflexivity|right; right; right; left; reflexivity|right; right; right; right; reflexivity|]. vm_compute in Hi. discriminate. }
  intros i [W Hi]. destruct (K i W) as [->|[->|[->|[->| ->]]]]; clear W Hi; unfold riffChunkOK; cbv zeta.
  - split; [vm_compute; reflexivity|]. do 4 (split; [vm_compute; discriminate|]). intros _. split; [vm_compute; discriminate|]. intros _.
    apply EN_entry; [vm_compute; discriminate|vm_compute; reflexivity|intros _; split; vm_compute; discriminate|]. apply EN_end. vm_compute. discriminate.
  - split; [vm_compute; reflexivity|]. split. { intros _. split; [vm_compute; discriminate|]. split; [intros H; vm_compute in H; discriminate|]. split; intros H; vm_compute in H; discriminate. } do 3 (split; [vm_compute; discriminate|]). vm_compute. intros [|]; discriminate.
  - split; [vm_compute; reflexivity|]. do 4 (split; [vm_compute; discriminate|]). vm_compute. intros [|]; discriminate.
  - split; [vm_compute; reflexivity|]. do 4 (split; [vm_compute; discriminate|]). vm_compute. intros [|]; discriminate.
  - split; [vm_compute; reflexivity|]. do 4 (split; [vm_compute; discriminate|]). vm_compute. intros [|]; discriminate.
Qed.
