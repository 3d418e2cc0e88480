(** * C74: a disk that fills up or fails while a file is written *)
From Verif Require Import Prelude PreludeFacts ByteOrder G711 G711Proofs FileIO Rebuffer RebufferProofs Reader ReaderSpec ReaderProofs PropertiesReader.
From Verif Require Import Writer WriterSpec WriterProofs WriterHistory Codecs CodecsProofs RoundTripProofs PropertiesWriter PropertiesRoundTrip HeaderIO FileRoundTrip NeXT PropertiesNeXT PropertiesForeign.
From Verif Require Import IMA Disk DiskProofs.

(** ** Specification *)

(** A file just opened for writing, on a disk that will answer as [d] says. *)
Definition opened {E} (c : wcodec (list Z) E) (hdr : list Z) (first cap : Z) (e0 : E) (d : disk) : dstate (list Z) E :=
  mkDS (openWrite c hdr first cap e0) true d.

(** Calls of afWriteFrames one after the other, whatever they return: each count, and whether an error was reported during the call. *)
Fixpoint writeEach {B : Build} {E V} (c : wcodec (list Z) E) (conv : V -> list Z) (junk : list Z) (s : dstate (list Z) E) (ws : list (list V)) : res (list (Z * bool) * dstate (list Z) E) :=
  match ws with
  | [] => Ok ([], s)
  | w :: ws => do (r, s) <- afWriteFramesD c conv junk true s w; do (rs, s') <- writeEach c conv junk s ws; Ok ((r, negb (ds_happy s)) :: rs, s')
  end.

(** ** Nothing goes wrong inside the library, and short counts and reported errors go together *)
Theorem C74_short_count_means_error :
  forall (B : Build) E c okF okE, library E c okF okE ->
  forall (V : Type) (conv : V -> list Z) junk upd hdr first cap e0 d (ws : list (list V)),
    okF junk -> 0 <= first -> okE e0 -> room c cap -> Forall okF (map conv (concat ws)) ->
    exists answers s s' f, writeEach c conv junk (opened c hdr first cap e0 d) ws = Ok (answers, s) /\
      Forall2 (fun w a => 0 <= fst a <= zlen w /\ snd a = (fst a <? zlen w)) ws answers /\
      afSyncFileD c junk true upd s = Ok (true, s') /\ afCloseFileD c junk true upd s = Ok (0, f).
Proof.
  intros B E c okF okE HL V conv junk upd hdr first cap e0 d ws Hj Hf He Hr Hok. pose proof (library_lawful _ _ _ _ HL) as Hlaw.
  assert (G : forall ws s, sane c junk okF okE (ds_state s) -> Forall okF (map conv (concat ws)) ->
    exists answers s', writeEach c conv junk s ws = Ok (answers, s') /\ Forall2 (fun w a => 0 <= fst a <= zlen w /\ snd a = (fst a <? zlen w)) ws answers /\ sane c junk okF okE (ds_state s')).
  { clear ws Hok. induction ws as [|w ws IH]; intros s HS Hw.
    - exists [], s. split; [reflexivity|]. split; [constructor|exact HS].
    - cbn [concat] in Hw. rewrite map_app in Hw. apply Forall_app in Hw. destruct Hw as [W1 W2]. cbn [writeEach].
      destruct (afWriteFramesD_sane c conv junk okF okE Hlaw Hj s w (sane_saneAt c junk okF okE _ HS) W1) as (r & s1 & E1 & S1 & R1 & H1 & _).
      rewrite E1. cbn [rbind]. destruct (IH s1 S1 W2) as (rs & s2 & E2 & F2 & S2). rewrite E2. cbn [rbind].
      exists ((r, negb (ds_happy s1)) :: rs), s2. split; [reflexivity|]. split; [|exact S2]. constructor; [|exact F2]. cbn [fst snd]. split; [exact R1|]. rewrite H1.
      destruct (Z.eqb_spec r (zlen w)), (Z.ltb_spec r (zlen w)); cbn [negb]; lia. }
  destruct (G ws (opened c hdr first cap e0 d) (open_sane c junk okF okE Hlaw Hj hdr first cap e0 Hf He Hr) Hok) as (answers & s & E1 & F1 & S1).
  destruct (modulesSyncD_sane c junk okF okE Hlaw s S1) as (s2 & E2 & _).
  eexists answers, s, _, _. split; [exact E1|]. split; [exact F1|]. unfold afCloseFileD, afSyncFileD. rewrite E2. cbn [rbind negb]. split; reflexivity.
Qed.
Print Assumptions C74_short_count_means_error.

(** ** An accommodating disk: the same file as without errors *)
Theorem C74_without_errors :
  forall (B : Build) E c okF okE, library E c okF okE ->
  forall (V : Type) (conv : V -> list Z) junk upd hdr first cap e0 (ws : list (list V)),
    okF junk -> 0 <= first -> okE e0 -> room c cap -> Forall okF (map conv (concat ws)) ->
    exists s st, writeUntilShort c conv junk true (opened c hdr first cap e0 []) ws = Ok (zlen (concat ws), s) /\ ds_happy s = true /\
      wrun c conv junk true upd (openWrite c hdr first cap e0) (map Write ws) = Ok st /\
      ws_file (ds_state s) = ws_file st /\ w_dsize (ws_track (ds_state s)) = w_dsize (ws_track st).
Proof.
  intros B E c okF okE HL V conv junk upd hdr first cap e0 ws Hj Hf He Hr Hok. pose proof (library_lawful _ _ _ _ HL) as Hlaw.
  pose proof (open_binv c junk okF okE Hlaw hdr first cap e0 He Hr) as OB.
  destruct (writeUntilShort_ok c conv junk okF okE Hlaw Hj hdr first cap e0 Hf He Hr ws (opened c hdr first cap e0 []) [] 0) as (k & s & E1 & S1 & R1 & H1 & K1 & D1); auto.
  { apply (open_sane c junk okF okE Hlaw Hj hdr first cap e0 Hf He Hr). }
  destruct (D1 eq_refl) as [Hh _]. rewrite Hh in K1. destruct K1 as [-> (nv & K1)].
  destruct (writes_ok c conv junk upd okF okE Hlaw Hj (base0 c junk hdr first e0) (openWrite c hdr first cap e0) [] 0 ws Hf OB Hok) as (st & E2 & I2).
  exists s, st. split; [exact E1|]. split; [exact Hh|]. split; [exact E2|]. cbn [app] in K1, I2.
  clear -K1 I2 Hlaw. unfold binv, base0 in K1, I2. destruct c as [p bpf enc|fpp bpp encB]; cbn [bB bT bE bPend bPrev w_nextpos] in *.
  - destruct K1 as (-> & _ & ->), I2 as (-> & _ & ->). split; reflexivity.
  - destruct Hlaw as (B1 & B2 & _). destruct K1 as (rl & pl & El & _ & _ & (m & dd & K1 & K2 & K3 & K4 & K5 & K6) & [_ Wo] & Pd & _).
    destruct I2 as (rl' & pl' & El' & _ & _ & (m' & dd' & K1' & K2' & K3' & K4' & K5' & K6') & [_ Wo'] & Pd' & _). cbn [app bE bB bT w_nextpos] in *.
    assert (Q : forall r (l : list (list Z)), 0 <= r_offset r < fpp -> pending r = map Some l -> zlen l < fpp).
    { intros r l H E1. rewrite <- (zlen_map (@Some (list Z))), <- E1. unfold pending. rewrite zlen_firstn by lia. lia. }
    apply Q in Pd; [|exact Wo]. apply Q in Pd'; [|exact Wo']. rewrite zlen_map in K1, K1'.
    assert (Lm : zlen rl + zlen pl = zlen rl' + zlen pl') by (rewrite <- !zlen_app; congruence).
    pose proof (zlen_nonneg pl). pose proof (zlen_nonneg pl').
    assert (Em : m = m') by nia. subst m'.
    assert (Er : rl = rl').
    { apply (f_equal (zfirstn (fpp * Z.of_nat m))) in El. apply (f_equal (zfirstn (fpp * Z.of_nat m))) in El'. rewrite <- K1, zfirstn_exact in El. rewrite <- K1', zfirstn_exact in El'. congruence. }
    subst rl'. assert (dd = dd') by congruence. subst dd'. rewrite K5, K6, K5', K6'. split; reflexivity.
Qed.
Print Assumptions C74_without_errors.

(** ** What is in the file when the application gives up at the first short count *)
Lemma counted {V W} (B : Build) E p bpf (enc : list Z -> list Z) okF okE (HL : library E (WPerFrame p bpf enc) okF okE)
  (dec g : list Z -> list Z) (conv : V -> list Z) (back : list Z -> W) junk upd hdr first cap e0 d (ws : list (list V)) :
    okF junk -> 0 <= first -> okE e0 -> updKeeps upd first ->
    Forall (fun v => okF (conv v) /\ dec (enc (conv v)) = g (conv v)) (concat ws) ->
    let c := WPerFrame p bpf enc in
    exists k s s' m, writeUntilShort c conv junk true (opened c hdr first cap e0 d) ws = Ok (k, s) /\ ds_happy s = (k =? zlen (concat ws)) /\
      afSyncFileD c junk true upd s = Ok (true, s') /\ 0 <= k <= m /\ m <= k + 1024 /\ m <= zlen (concat ws) /\
      w_totalf (ws_track (ds_state s')) = m /\ w_dsize (ws_track (ds_state s')) / bpf = m /\
      (0 < m -> readsAs B (PerFrame p bpf dec) back (fbytes (ws_file (ds_state s'))) first m (map (fun v => back (g (conv v))) (zfirstn m (concat ws)))) /\
      w_first (ws_track (ds_state s')) = first /\ ws_file (ds_state s') = upd (ws_file (ds_state s)) (ws_track (ds_state s')) /\
      (0 < m -> first + w_dsize (ws_track (ds_state s')) <= zlen (fbytes (ws_file (ds_state s')))) /\ 0 <= w_dsize (ws_track (ds_state s')) <= bpf * zlen (concat ws).
Proof.
  intros Hj Hf He Hu Hok c. pose proof (library_lawful _ _ _ _ HL) as Hlaw. pose proof Hlaw as [Hb Henc]. set (L := concat ws) in *.
  assert (Hok1 : Forall okF (map conv L)) by (apply Forall_map; eapply Forall_impl; [|exact Hok]; cbn; tauto).
  destruct (stopped c conv junk okF okE Hlaw Hj hdr first cap e0 Hf He I ws d Hok1) as (k & s & E1 & S1 & R1 & H1 & count & C1 & C2 & D & tail & A1 & A2 & A3 & A4 & A5 & A6 & A7 & rest & A8).
  fold L in C2, R1, H1, A5, A8. change ATOMIC with 1024 in C1.
  destruct (modulesSyncD_sane c junk okF okE Hlaw s S1) as (s2 & E2 & M1 & M2 & M3 & more & M4 & M5 & -> & M6). change (zlen (@nil Z)) with 0 in *. rewrite Z.add_0_r in M5. rewrite ow_nil, Z.add_0_r in M4.
  assert (M4' : ws_file (ds_state s2) = ws_file (ds_state s)) by (rewrite M4; destruct (ws_file (ds_state s)); reflexivity). clear M4.
  set (t := ws_track (ds_state s2)) in *. set (n := zlen (D ++ tail)) in *. set (m := n / bpf).
  assert (L0 : zlen D = bpf * k). { rewrite A5. rewrite (concat_enc_len junk okF Hj bpf enc _ Henc) by (rewrite map_zfirstn; now apply Forall_firstn). rewrite zlen_map, zlen_firstn by lia. f_equal. lia. }
  assert (L1 : zlen tail + zlen rest = bpf * count).
  { rewrite <- zlen_app, <- A8. rewrite (concat_enc_len junk okF Hj bpf enc _ Henc) by (rewrite map_zfirstn, map_zskipn; now apply Forall_firstn, Forall_skipn). rewrite zlen_map, zlen_firstn, zlen_skipn by lia. f_equal. lia. }
  pose proof (zlen_nonneg tail). pose proof (zlen_nonneg rest).
  assert (Ln : n = bpf * k + zlen tail) by (unfold n; rewrite zlen_app; lia).
  pose proof (Z.div_mod n bpf ltac:(lia)) as DM. pose proof (Z.mod_pos_bound n bpf ltac:(lia)) as MB. fold m in DM.
  assert (Rm : k <= m <= k + count) by nia.
  (* the frames in the data *)
  assert (EA : zfirstn n (concat (map enc (map conv L))) = D ++ tail).
  { rewrite <- (zfirstn_skipn k L) at 1. rewrite <- (zfirstn_skipn count (zskipn k L)) at 1. rewrite !map_app, !concat_app, <- A5, A8. rewrite <- !app_assoc. rewrite app_assoc. apply zfirstn_exact. }
  assert (Hm : zfirstn (bpf * m) (D ++ tail) = concat (map enc (map conv (zfirstn m L)))).
  { rewrite <- EA, zfirstn_zfirstn by nia. replace (Z.min (bpf * m) n) with (bpf * m) by nia. rewrite <- (zfirstn_skipn m L) at 1. rewrite !map_app, concat_app.
    replace (bpf * m) with (zlen (concat (map enc (map conv (zfirstn m L))))); [apply zfirstn_exact|].
    rewrite (concat_enc_len junk okF Hj bpf enc _ Henc) by (rewrite map_zfirstn; now apply Forall_firstn). rewrite zlen_map, zlen_firstn by lia. f_equal. lia. }
  exists k, s, (mkDS (wsetFile (ds_state s2) (upd (ws_file (ds_state s2)) t)) (ds_happy s2) (ds_disk s2)), m.
  split; [exact E1|]. split; [exact H1|]. split; [unfold afSyncFileD; rewrite E2; reflexivity|]. unfold wsetFile. cbn [ds_state ws_file ws_track]. fold t.
  split; [lia|]. split; [lia|]. split; [lia|]. split; [rewrite M6; exact A6|]. rewrite M5, A3. split; [reflexivity|].
  assert (TF : w_first t = first) by (rewrite M1; exact A2).
  assert (RG : region (fbytes (upd (ws_file (ds_state s2)) t)) first n = D ++ tail).
  { assert (Ew : w_after t - first = n) by (rewrite M3, TF, M5, A3; lia). rewrite <- Ew at 1. rewrite (Hu _ _ TF), Ew, M4', A1. cbn [fbytes]. apply ow_region_data. lia. }
  assert (Fit : 0 < m -> first + n <= zlen (fbytes (upd (ws_file (ds_state s2)) t))).
  { intros Pm. apply region_fits; [exact Hf| |exact RG]. intros E0. fold n in Ln. unfold n in DM. rewrite E0 in DM. change (zlen (@nil Z)) with 0 in DM. nia. }
  split.
  { intros Pm. rewrite <- (map_map (fun v => g (conv v)) back), <- (map_map conv g). apply holds_readsAs.
    replace m with (zlen (map conv (zfirstn m L))) at 1 by (rewrite zlen_map, zlen_firstn by lia; lia).
    apply perFrame_holds with (enc := enc).
    - specialize (Fit Pm). nia.
    - exact Hb.
    - apply Forall_map. apply Forall_firstn. eapply Forall_impl; [|exact Hok]. cbn. intros v [Q1 Q2]. split; [now apply Henc|exact Q2].
    - rewrite <- Hm at 2. rewrite <- RG. unfold region. rewrite zfirstn_zfirstn by nia. rewrite <- Hm. rewrite zlen_firstn. fold n. f_equal. lia. }
  split; [exact TF|]. split; [now rewrite M4'|]. split; [exact Fit|]. nia.
Qed.

(** PCM and G.711: the file holds the first [m] frames, all that were counted and at most 1024 more; what follows them is less than a frame. *)
Theorem C74_counted_frames_are_stored :
  forall (B : Build) E p bpf (enc : list Z -> list Z) okF okE, library E (WPerFrame p bpf enc) okF okE ->
  forall (dec g : list Z -> list Z) (V W : Type) (conv : V -> list Z) (back : list Z -> W) junk upd hdr first cap e0 d (ws : list (list V)),
    okF junk -> 0 <= first -> okE e0 -> updKeeps upd first ->
    Forall (fun v => okF (conv v) /\ dec (enc (conv v)) = g (conv v)) (concat ws) ->
    let c := WPerFrame p bpf enc in
    exists k s s' m, writeUntilShort c conv junk true (opened c hdr first cap e0 d) ws = Ok (k, s) /\ ds_happy s = (k =? zlen (concat ws)) /\
      afSyncFileD c junk true upd s = Ok (true, s') /\ 0 <= k <= m /\ m <= k + 1024 /\ m <= zlen (concat ws) /\
      w_totalf (ws_track (ds_state s')) = m /\ w_dsize (ws_track (ds_state s')) / bpf = m /\
      (0 < m -> readsAs B (PerFrame p bpf dec) back (fbytes (ws_file (ds_state s'))) first m (map (fun v => back (g (conv v))) (zfirstn m (concat ws)))).
Proof.
  intros B E p bpf enc okF okE HL dec g V W conv back junk upd hdr first cap e0 d ws Hj Hf He Hu Hok c.
  destruct (counted B E p bpf enc okF okE HL dec g conv back junk upd hdr first cap e0 d ws Hj Hf He Hu Hok) as (k & s & s' & m & H1 & H2 & H3 & H4 & H5 & H6 & H7 & H8 & H9 & _).
  exists k, s, s', m. auto 12.
Qed.
Print Assumptions C74_counted_frames_are_stored.

(** A NeXT/Sun file opened again after the disk filled up: it opens, and delivers all the frames that were counted, and possibly some of those that were not. *)
Theorem C74_next_file_after_full_disk :
  forall (B : Build) host sf n ch rate, nextPCM sf n -> 0 < ch -> 0 <= rate < 2 ^ 32 ->
  forall (V W : Type) (conv : V -> list Z) (back : list Z -> W) junk cap d (ws : list (list V)),
    let sgn := match sf with TwosComp => true | _ => false end in
    let bpf := Z.of_nat n * ch in
    let fm := mkFmt rate sf (8 * Z.of_nat n) ch BigEndian CNone 1 bpf in
    let c := pcmW BigEndian n ch in
    zlen junk = ch -> Forall (fun v => frameOf ch (fits sgn n) (conv v)) (concat ws) -> 28 + bpf * zlen (concat ws) < 2 ^ 31 ->
    exists k s s' m, writeUntilShort c conv junk true (opened c (nextInit fm) nextFirst cap tt d) ws = Ok (k, s) /\
      afCloseFileD c junk true (nextUpdate fm) s = Ok (0, s') /\ 0 <= k <= m /\ m <= k + 1024 /\
      (0 < m -> reopens B (nextRead host) (fbytes s') (pcmR BigEndian sgn n ch) back fm 28 m (map (fun v => back (conv v)) (zfirstn m (concat ws)))).
Proof.
  intros B host sf n ch rate Hsf Hc Hr V W conv back junk cap d ws sgn bpf fm c Hj Hok Hs.
  assert (Hn : (1 <= n <= 8)%nat) by (destruct Hsf; lia). change (2 ^ 31) with 2147483648 in Hs.
  assert (Pb : 0 < bpf) by (unfold bpf; nia).
  destruct (counted (W := W) B unit true bpf (fun fr => concat (map (sampleBytes BigEndian n) fr)) (frameOf ch (fun _ => True)) (fun _ => True) (L_pcm BigEndian n ch ltac:(lia) Hc)
     (match pcmR BigEndian sgn n ch with PerFrame _ _ dec => dec | _ => fun x => x end) (fun x => x) conv back junk (nextUpdate fm) (nextInit fm) nextFirst cap tt d ws)
    as (k & s & s' & m & E1 & E2 & E3 & E4 & E5 & E6 & E7 & E8 & E9 & E10 & E11 & E12 & E13).
  - split; [exact Hj|]. apply Forall_forall; auto.
  - unfold nextFirst; lia.
  - exact I.
  - apply next_keeps.
  - eapply Forall_impl; [|exact Hok]. cbn. intros v [H1 H2]. split; [split; [exact H1|apply Forall_forall; auto]|].
    apply pcm_frame_roundtrip; [lia|]. split; [exact H1|exact H2].
  - exists k, s, (ws_file (ds_state s')), m. split; [exact E1|]. split; [unfold afCloseFileD; change (afSyncFileD c junk true (nextUpdate fm) s = Ok (true, s')) in E3; rewrite E3; reflexivity|]. split; [exact E4|]. split; [exact E5|]. intros Pm.
    specialize (E9 Pm). specialize (E12 Pm). set (size := w_dsize (ws_track (ds_state s'))) in *.
    destruct (ow_head (fbytes (ws_file (ds_state s))) (nextHeader fm (w_first (ws_track (ds_state s'))) size)) as (rest & Eo).
    assert (Eb : fbytes (ws_file (ds_state s')) = nextHeader fm nextFirst size ++ rest).
    { rewrite E11 at 1. unfold nextUpdate, fwrite, fseek. cbn [fbytes fpos]. fold size. rewrite Eo, E10. reflexivity. }
    destruct (next_read_header host fm size (fbytes (ws_file (ds_state s'))) rest Eb) as (f' & RH).
    + exact E12.
    + change (2 ^ 32) with 4294967296. lia.
    + change (2 ^ 32) with 4294967296. lia.
    + exact Hr.
    + cbn [fm f_chan]. change (2 ^ 31) with 2147483648. unfold bpf in *. nia.
    + cbn [fm f_comp f_order f_fpp f_bpp f_width f_chan f_sf]. split; [reflexivity|]. split; [reflexivity|].
      split; [replace (8 * Z.of_nat n / 8) with (Z.of_nat n) by lia; reflexivity|]. split; [change (2 ^ 31) with 2147483648; unfold bpf in *; nia|].
      destruct Hsf as [n Hn'| |]; [left|right; left; auto|right; right; auto]. split; [reflexivity|].
      destruct n as [|[|[|[|[|n]]]]]; try lia; cbn; auto.
    + rewrite computeTotal_floor in RH; [|reflexivity|exact Pb|change (2 ^ 62) with 4611686018427387904; lia]. cbn [fm f_bpp] in RH. rewrite E8 in RH.
      exists size, f'. split; [exact RH|exact E9].
Qed.
Print Assumptions C74_next_file_after_full_disk.

Lemma region_pre b p (D tail : list Z) : 0 <= p -> region (overwrite b p (D ++ tail)) p (zlen D) = D.
Proof.
  intros Hp. pose proof (ow_region_data b p (D ++ tail) Hp) as Q. apply (f_equal (zfirstn (zlen D))) in Q. unfold region in Q |- *. pose proof (zlen_nonneg D). pose proof (zlen_nonneg tail).
  rewrite zfirstn_zfirstn in Q by lia. rewrite Z.min_l in Q by (rewrite zlen_app; lia). rewrite Q. apply zfirstn_exact.
Qed.

(** IMA and MS ADPCM: the audio data begins with the encoding of the whole blocks among the frames that were counted; this is kept by the sync that follows. *)
Theorem C74_counted_blocks_are_stored :
  forall (B : Build) E fpp bpp encB okF okE, library E (WBlocks fpp bpp encB) okF okE ->
  forall (V : Type) (conv : V -> list Z) junk upd hdr first cap e0 d (ws : list (list V)),
    okF junk -> 0 <= first -> okE e0 -> fpp <= cap -> updKeeps upd first -> Forall okF (map conv (concat ws)) ->
    let c := WBlocks fpp bpp encB in
    exists k s s' D, writeUntilShort c conv junk true (opened c hdr first cap e0 d) ws = Ok (k, s) /\ ds_happy s = (k =? zlen (concat ws)) /\ 0 <= k <= zlen (concat ws) /\
      afSyncFileD c junk true upd s = Ok (true, s') /\
      audio c junk e0 (map conv (zfirstn (fpp * (k / fpp)) (concat ws))) = Ok D /\ zlen D = bpp * (k / fpp) /\
      region (fbytes (ws_file (ds_state s))) first (zlen D) = D /\ region (fbytes (ws_file (ds_state s'))) first (zlen D) = D.
Proof.
  intros B E fpp bpp encB okF okE HL V conv junk upd hdr first cap e0 d ws Hj Hf He Hr Hu Hok c. pose proof (library_lawful _ _ _ _ HL) as Hlaw. pose proof Hlaw as (B1 & B2 & Henc). set (L := concat ws) in *.
  destruct (stopped c conv junk okF okE Hlaw Hj hdr first cap e0 Hf He Hr ws d Hok) as (k & s & E1 & S1 & R1 & H1 & count & C1 & C2 & D & tail & A1 & A2 & A3 & A4 & A5).
  fold L in C2, R1, H1, A5. destruct A5 as (rl & pl & e & F1 & F2 & F3 & F4 & F5).
  destruct (modulesSyncD_sane c junk okF okE Hlaw s S1) as (s2 & E2 & M1 & M2 & M3 & more & M4 & M5 & _).
  assert (Lk : zlen rl + zlen pl = k) by (rewrite <- zlen_app, <- F1, zlen_map, zlen_firstn; lia). pose proof (zlen_nonneg pl) as Zp. pose proof (zlen_nonneg rl) as Zr.
  pose proof (Z.div_mod (zlen rl) fpp ltac:(lia)) as DM. rewrite F3 in DM. set (q := zlen rl / fpp) in *. clearbody q.
  assert (Ek : k / fpp = q) by (symmetry; apply Z.div_unique with (zlen pl); lia).
  assert (Erl : map conv (zfirstn (fpp * (k / fpp)) L) = rl).
  { rewrite Ek. replace (fpp * q) with (Z.min (zlen rl) k) by lia. rewrite <- zfirstn_zfirstn by lia. rewrite map_zfirstn, F1. apply zfirstn_exact. }
  assert (RG : forall x, region (overwrite hdr first ((D ++ tail) ++ x)) first (zlen D) = D) by (intros x; rewrite <- app_assoc; now apply region_pre).
  exists k, s, (mkDS (wsetFile (ds_state s2) (upd (ws_file (ds_state s2)) (ws_track (ds_state s2)))) (ds_happy s2) (ds_disk s2)), D.
  split; [exact E1|]. split; [exact H1|]. split; [exact R1|]. split; [unfold afSyncFileD; rewrite E2; reflexivity|].
  rewrite Erl, Ek. split.
  { unfold c, audio. rewrite <- (app_nil_r rl) at 2. rewrite (cut_blocks fpp B1 (Z.to_nat q)); [|rewrite zlen_repeat by lia; lia|rewrite Z2Nat.id by nia; lia|change (zlen (@nil (list Z))) with 0; lia|rewrite app_nil_r; lia].
    rewrite app_nil_r, <- encRun_all, F4. reflexivity. }
  split; [exact F5|]. split.
  { rewrite A1. cbn [fbytes]. rewrite <- (app_nil_r (D ++ tail)). apply RG. }
  unfold wsetFile. cbn [ds_state ws_file].
  assert (TF : w_first (ws_track (ds_state s2)) = first) by (rewrite M1; exact A2).
  assert (Ew : w_after (ws_track (ds_state s2)) - first = zlen ((D ++ tail) ++ more)) by (rewrite M3, TF, M5, A3, !zlen_app; lia).
  pose proof (Hu (ws_file (ds_state s2)) _ TF) as Q. rewrite Ew in Q.
  assert (EB : fbytes (ws_file (ds_state s2)) = overwrite hdr first ((D ++ tail) ++ more)) by (rewrite M4, A1; cbn [fbytes fpos]; apply ow_app; lia). rewrite EB in Q.
  apply (f_equal (zfirstn (zlen D))) in Q. unfold region in Q |- *. pose proof (zlen_nonneg D). pose proof (zlen_nonneg tail). pose proof (zlen_nonneg more).
  rewrite !zfirstn_zfirstn in Q by lia. rewrite !Z.min_l in Q by (rewrite !zlen_app; lia). rewrite Q. apply RG.
Qed.
Print Assumptions C74_counted_blocks_are_stored.

(** ** Trying again *)

(** The disk refuses a piece of data altogether or takes it whole (1024 frames of [bpf] bytes are the largest piece). *)
Definition allOrNothing (bpf : Z) (d : disk) : Prop := Forall (fun a => a <= 0 \/ 1024 * bpf <= a) d.

Lemma push_all_or_nothing {V} (B : Build) E p bpf (enc : list Z -> list Z) okF okE (Hlaw : lawful (WPerFrame (E := E) p bpf enc) okF okE) (conv : V -> list Z) junk hdr first e0 (s : dstate (list Z) E) l nv chunk :
  okF junk -> 0 <= first -> let c := WPerFrame p bpf enc in let b := base0 c junk hdr first e0 in
  binv c junk okF okE b (ds_state s) l nv -> ds_happy s = true -> Forall okF (map conv chunk) -> 0 < zlen chunk <= 1024 -> allOrNothing bpf (ds_disk s) ->
  exists s', userPushD c conv junk true s chunk = Ok s' /\ ds_disk s' = tl (ds_disk s) /\
    (if ds_happy s' then binv c junk okF okE b (ds_state s') (l ++ map conv chunk) nv else binv c junk okF okE b (ds_state s') l nv /\ ds_disk s <> []).
Proof.
  intros Hj Hf c b HI Hh Hc Hz Hd. pose proof Hlaw as [Hb He]. unfold binv in HI |- *. unfold b, base0, c in *. cbn [bB bT w_nextpos] in *. destruct HI as (If & Il & It).
  pose proof (concat_enc_len junk okF Hj bpf enc _ He Hc) as Ln. rewrite zlen_map in Ln. set (data := concat (map enc (map conv chunk))) in *.
  pose proof (zlen_nonneg (concat (map enc l))) as Z0. pose proof (zlen_nonneg l) as Z1.
  unfold userPushD, perFramePushD. replace (bpf <=? 0) with false by lia. fold data. unfold fmWriteD, dwrite. rewrite Hh, zlen_map. rewrite If, It.
  assert (Full : forall dk, exists s', (do (f, t, happy, d) <-
      (let '(written, f, t, d) := (let '(n, f, d) := (zlen data, fwrite (mkFile (overwrite hdr first (concat (map enc l))) (first + zlen (concat (map enc l)))) data, dk) in
          let t := if 0 <? n then moved (afterT (mkWT first 0 0 first 0 0 0 0 (-1) (-1)) (zlen l) (zlen (concat (map enc l))) nv) n else afterT (mkWT first 0 0 first 0 0 0 0 (-1) (-1)) (zlen l) (zlen (concat (map enc l))) nv in (n, f, t, d)) in
       let n := if 0 <=? written then Z.quot written bpf else 0 in let happy := true && (n =? zlen chunk) in let t := advance t n in
       do _ <- rassert (negb true || (ftell f =? w_nextpos t)); Ok (f, t, happy, d));
      Ok (mkDS (mkWS f t (ws_enc (ds_state s)) (ws_reb (ds_state s)) (ws_out (ds_state s))) happy d)) = Ok s' /\ ds_disk s' = dk /\ ds_happy s' = true /\
      ws_file (ds_state s') = mkFile (overwrite hdr first (concat (map enc (l ++ map conv chunk)))) (first + zlen (concat (map enc (l ++ map conv chunk)))) /\
      zlen (concat (map enc (l ++ map conv chunk))) = bpf * zlen (l ++ map conv chunk) /\
      ws_track (ds_state s') = afterT (mkWT first 0 0 first 0 0 0 0 (-1) (-1)) (zlen (l ++ map conv chunk)) (zlen (concat (map enc (l ++ map conv chunk)))) nv).
  { intros dk. cbv beta iota zeta. rewrite Ln. replace (0 <? bpf * zlen chunk) with true by nia. replace (0 <=? bpf * zlen chunk) with true by nia. cbv iota.
    rewrite (Z.mul_comm bpf (zlen chunk)), Z.quot_mul by lia. rewrite Z.eqb_refl. unfold rassert, ftell, fwrite, advance, moved, afterT.
    cbn [fbytes fpos w_first w_nextf w_totalf w_nextpos w_after w_dsize w_nextv w_totalv w_savedpos w_savednext negb orb andb].
    rewrite (proj2 (Z.eqb_eq _ _)) by lia. cbn [rbind]. eexists. split; [reflexivity|]. cbn [ds_disk ds_happy ds_state ws_file ws_track]. split; [reflexivity|]. split; [reflexivity|].
    rewrite map_app, concat_app. fold data. rewrite ow_app by lia. rewrite !zlen_app, zlen_map. split; [f_equal; lia|]. split; [lia|].
    replace (zlen l + zlen chunk =? 0) with false by lia. f_equal; lia. }
  assert (None' : forall dk nn, nn <= 0 -> exists s', (do (f, t, happy, d) <-
      (let n := if 0 <=? nn then Z.quot nn bpf else 0 in let happy := true && (n =? zlen chunk) in let t := advance (afterT (mkWT first 0 0 first 0 0 0 0 (-1) (-1)) (zlen l) (zlen (concat (map enc l))) nv) n in
       do _ <- rassert (negb true || (ftell (mkFile (overwrite hdr first (concat (map enc l))) (first + zlen (concat (map enc l)))) =? w_nextpos t)); Ok (mkFile (overwrite hdr first (concat (map enc l))) (first + zlen (concat (map enc l))), t, happy, dk));
      Ok (mkDS (mkWS f t (ws_enc (ds_state s)) (ws_reb (ds_state s)) (ws_out (ds_state s))) happy d)) = Ok s' /\ ds_disk s' = dk /\ ds_happy s' = false /\
      ws_file (ds_state s') = mkFile (overwrite hdr first (concat (map enc l))) (first + zlen (concat (map enc l))) /\
      ws_track (ds_state s') = afterT (mkWT first 0 0 first 0 0 0 0 (-1) (-1)) (zlen l) (zlen (concat (map enc l))) nv).
  { intros dk nn Hn. replace (if 0 <=? nn then Z.quot nn bpf else 0) with 0 by (destruct (Z.leb_spec 0 nn); [replace nn with 0 by lia; now rewrite Z.quot_0_l by lia|reflexivity]).
    unfold rassert, ftell, advance, afterT. cbn [fbytes fpos w_first w_nextf w_totalf w_nextpos w_after w_dsize w_nextv w_totalv w_savedpos w_savednext negb orb andb].
    rewrite Z.eqb_refl. cbn [rbind]. eexists. split; [reflexivity|]. cbn [ds_disk ds_happy ds_state ws_file ws_track]. split; [reflexivity|]. split; [apply Z.eqb_neq; lia|]. split; [reflexivity|].
    rewrite !Z.add_0_r. destruct (Z.eqb_spec (zlen l) 0) as [->|]; reflexivity. }
  destruct (ds_disk s) as [|a dk] eqn:Ed.
  - destruct (Full []) as (s' & E1 & E2 & E3 & E4 & E5 & E6). exists s'. split; [exact E1|]. split; [exact E2|]. rewrite E3. auto.
  - pose proof (Forall_inv Hd) as Ha. cbv beta in Ha. cbn [tl]. destruct (Z.ltb_spec a 0).
    + destruct (None' dk (-1) ltac:(lia)) as (s' & E1 & E2 & E3 & E4 & E5). exists s'. cbn [Z.ltb Z.compare]. split; [exact E1|]. split; [exact E2|]. rewrite E3. split; [auto|discriminate].
    + destruct (Z.eq_dec a 0) as [->|Na].
      * rewrite zfirstn_0 by lia. change (zlen (@nil Z)) with 0. unfold fwrite. rewrite ow_nil. cbn [fbytes fpos]. change (zlen (@nil Z)) with 0. rewrite Z.add_0_r. cbn [Z.ltb Z.compare].
        destruct (None' dk 0 ltac:(lia)) as (s' & E1 & E2 & E3 & E4 & E5). exists s'. split; [exact E1|]. split; [exact E2|]. rewrite E3. split; [auto|discriminate].
      * rewrite zfirstn_all by nia. destruct (Full dk) as (s' & E1 & E2 & E3 & E4 & E5 & E6). exists s'. split; [exact E1|]. split; [exact E2|]. rewrite E3. auto.
Qed.

Lemma loop_all_or_nothing {V} (B : Build) E p bpf (enc : list Z -> list Z) okF okE (Hlaw : lawful (WPerFrame (E := E) p bpf enc) okF okE) (conv : V -> list Z) junk hdr first e0 :
  okF junk -> 0 <= first -> let c := WPerFrame p bpf enc in let b := base0 c junk hdr first e0 in
  forall fuel (s : dstate (list Z) E) l nv samples v, binv c junk okF okE b (ds_state s) (l ++ map conv (zfirstn v samples)) nv -> ds_happy s = true -> Forall okF (map conv samples) ->
    0 <= v <= zlen samples -> zlen samples - v < Z.of_nat fuel -> allOrNothing bpf (ds_disk s) ->
  exists s' r, writeLoopD c conv junk true fuel s samples v (zlen samples) = Ok (s', r) /\ v <= r <= zlen samples /\ binv c junk okF okE b (ds_state s') (l ++ map conv (zfirstn r samples)) nv /\
    allOrNothing bpf (ds_disk s') /\ (r = zlen samples \/ (length (ds_disk s') < length (ds_disk s))%nat) /\ (length (ds_disk s') <= length (ds_disk s))%nat.
Proof.
  intros Hj Hf c b. induction fuel as [|fuel IH]; intros s l nv samples v HI Hh Hs Hv Hfu Hd; [lia|].
  cbn [writeLoopD]. destruct (Z.ltb_spec v (zlen samples)) as [Hlt|Hge]; cbn [negb].
  - set (count := if v <=? zlen samples - ATOMIC then ATOMIC else zlen samples - v).
    assert (Hc : 0 < count <= zlen samples - v /\ count <= 1024) by (unfold count, ATOMIC; destruct (Z.leb_spec v (zlen samples - 1024)); lia).
    clearbody count. rewrite slice_ok by lia. cbn [rbind].
    destruct (push_all_or_nothing B E p bpf enc okF okE Hlaw conv junk hdr first e0 s (l ++ map conv (zfirstn v samples)) nv (zfirstn count (zskipn v samples)) Hj Hf HI Hh) as (s1 & E1 & T1 & I1); auto.
    { rewrite map_zfirstn, map_zskipn. now apply Forall_firstn, Forall_skipn. } { rewrite zlen_firstn, zlen_skipn by lia. lia. }
    fold c b in I1, E1. rewrite E1. cbn [rbind].
    assert (Hd1 : allOrNothing bpf (ds_disk s1)) by (rewrite T1; unfold allOrNothing in *; destruct (ds_disk s); [constructor|now inversion Hd]).
    assert (Ld1 : (length (ds_disk s1) <= length (ds_disk s))%nat) by (rewrite T1; destruct (ds_disk s); cbn; lia).
    destruct (ds_happy s1) eqn:Eh; cbn [negb].
    + destruct (IH s1 l nv samples (v + count)) as (s' & r & E2 & R2 & I2 & A2 & D2 & D3); auto; try lia.
      { rewrite <- app_assoc, <- map_app, <- zfirstn_split in I1 by lia. exact I1. }
      exists s', r. split; [exact E2|]. split; [lia|]. split; [exact I2|]. split; [exact A2|]. split; [destruct D2; [left; assumption|right; lia]|lia].
    + destruct I1 as [I1 Hne]. exists s1, v. split; [reflexivity|]. split; [lia|]. split; [exact I1|]. split; [exact Hd1|]. split; [|exact Ld1]. right. rewrite T1. destruct (ds_disk s); [congruence|cbn; lia].
  - exists s, v. split; [reflexivity|]. split; [lia|]. split; [exact HI|]. split; [exact Hd|]. split; [left; lia|lia].
Qed.

(** On such a disk, an application that writes again the frames that were not counted delivers every frame once: the file is the one a disk without errors gives.
    One attempt more than the disk has refusals is enough. *)
Theorem C74_refused_writes_can_be_repeated :
  forall (B : Build) E p bpf (enc : list Z -> list Z) okF okE, library E (WPerFrame p bpf enc) okF okE ->
  forall (V : Type) (conv : V -> list Z) junk upd hdr first cap e0 d (samples : list V) attempts,
    okF junk -> 0 <= first -> okE e0 -> Forall okF (map conv samples) -> allOrNothing bpf d -> (length d < attempts)%nat ->
    let c := WPerFrame p bpf enc in
    exists s st, writeAgain c conv junk true attempts (opened c hdr first cap e0 d) samples = Ok ([], s) /\
      wrun c conv junk true upd (openWrite c hdr first cap e0) [Write samples] = Ok st /\
      ws_file (ds_state s) = ws_file st /\ ws_track (ds_state s) = ws_track st.
Proof.
  intros B E p bpf enc okF okE HL V conv junk upd hdr first cap e0 d samples attempts Hj Hf He Hs Hd Ha c. pose proof (library_lawful _ _ _ _ HL) as Hlaw. set (b := base0 c junk hdr first e0).
  assert (G : forall n s l nv samples, binv c junk okF okE b (ds_state s) l nv -> Forall okF (map conv samples) -> allOrNothing bpf (ds_disk s) -> (length (ds_disk s) < n)%nat ->
     exists s', writeAgain c conv junk true n s samples = Ok ([], s') /\ binv c junk okF okE b (ds_state s') (l ++ map conv samples) (nv + zlen samples)).
  { clear d samples attempts Hs Hd Ha. induction n as [|n IH]; intros s l nv samples HI Hs Hd Hn; [lia|]. cbn [writeAgain]. pose proof (zlen_nonneg samples) as Zs.
    destruct (Z.leb_spec (zlen samples) 0) as [H0|H0].
    - assert (samples = []) as -> by (destruct samples; [reflexivity|rewrite zlen_cons in *; pose proof (zlen_nonneg samples); lia]).
      exists s. split; [reflexivity|]. cbn [map]. rewrite app_nil_r. change (zlen (@nil V)) with 0. rewrite Z.add_0_r. exact HI.
    - unfold afWriteFramesD at 1. pose proof (binv_seeked c junk true okF okE Hlaw b _ _ _ HI) as Sk. unfold wseeked in Sk. rewrite Sk.
      destruct (loop_all_or_nothing B E p bpf enc okF okE Hlaw conv junk hdr first e0 Hj Hf (Z.to_nat (zlen samples) + 1) (mkDS (ds_state s) true (ds_disk s)) l nv samples 0) as (s1 & r & E1 & R1 & I1 & A1 & D1 & D2); auto; try lia.
      { cbn [ds_state]. rewrite zfirstn_0 by lia. cbn [map]. rewrite app_nil_r. exact HI. }
      fold c b in I1, E1. rewrite E1. cbn [rbind]. cbn [ds_disk] in *.
      pose proof (binv_setnv c junk okF okE Hlaw b (ds_state s1) _ nv r I1) as I2. cbv zeta in I2.
      set (s2 := mkDS _ (ds_happy s1) (ds_disk s1)). destruct (Z.eq_dec r (zlen samples)) as [->|Nr].
      + exists s2. rewrite zskipn_all by lia. rewrite zfirstn_all in I2 by lia. split; [|exact I2]. destruct n; reflexivity.
      + destruct (IH s2 (l ++ map conv (zfirstn r samples)) (nv + r) (zskipn r samples)) as (s' & E2 & I3).
        * exact I2.
        * rewrite map_zskipn. now apply Forall_skipn.
        * exact A1.
        * unfold s2. cbn [ds_disk]. lia.
        * exists s'. split; [exact E2|]. rewrite <- app_assoc, <- map_app, zfirstn_skipn in I3. rewrite zlen_skipn in I3 by lia. replace (nv + r + Z.max 0 (zlen samples - r)) with (nv + zlen samples) in I3 by lia. exact I3. }
  destruct (G attempts (opened c hdr first cap e0 d) [] 0 samples) as (s & E1 & I1); auto.
  { apply (open_binv c junk okF okE Hlaw hdr first cap e0 He I). }
  pose proof (open_binv c junk okF okE Hlaw hdr first cap e0 He I) as OB.
  assert (Hok' : Forall okF (map conv (concat [samples]))) by (cbn [concat]; rewrite app_nil_r; exact Hs).
  destruct (writes_ok c conv junk upd okF okE Hlaw Hj b (openWrite c hdr first cap e0) [] 0 [samples] Hf OB Hok') as (st & E2 & I2).
  exists s, st. split; [exact E1|]. split; [exact E2|]. cbn [concat app] in I1, I2. rewrite app_nil_r in I2.
  unfold binv, c, b, base0 in I1, I2. cbn [bB bT w_nextpos] in I1, I2. destruct I1 as (-> & _ & ->), I2 as (-> & _ & ->). split; reflexivity.
Qed.
Print Assumptions C74_refused_writes_can_be_repeated.

Example C74_example :
  (* 2100 mono frames of 16 bits; the second piece is refused twice, then the disk takes everything *)
  let samples := map (fun i => [Z.of_nat i]) (seq 0 2100) in let c := pcmW BigEndian 2 1 in
  allOrNothing 2 [4096; -1; 0] /\ Forall (frameOf 1 (fun _ => True)) samples /\
  (forall B : Build, rmap (fun x => (fst x, w_dsize (ws_track (ds_state (snd x))))) (afWriteFramesD c (fun x => x) [0] true (opened c [7; 7] 2 1024 tt [4096; -1; 0]) samples) = Ok (1024, 2048)) /\
  (forall B : Build, rmap (fun x => (fst x, w_dsize (ws_track (ds_state (snd x))))) (writeAgain c (fun x => x) [0] true 4 (opened c [7; 7] 2 1024 tt [4096; -1; 0]) samples) = Ok ([], 4200)) /\
  (* a disk with room for 3001 bytes of data: 1024 frames are counted, 1500 are in the file *)
  (forall B : Build, rmap (fun x => (fst x, w_dsize (ws_track (ds_state (snd x))))) (writeUntilShort c (fun x => x) [0] true (opened c [7; 7] 2 1024 tt [2048; 953; 0; 0]) [samples]) = Ok (1024, 3001)).
Proof.
  cbv zeta. split; [unfold allOrNothing; repeat constructor; lia|]. split.
  { apply Forall_map. apply Forall_forall. intros i _. split; [reflexivity|repeat constructor]. }
  split; [intros []; vm_compute; reflexivity|]. split; intros []; vm_compute; reflexivity.
Qed.

(** ** What does not hold *)

(** Writing the uncounted frames again after a piece that was taken in part: whole frames of the piece are in the file twice, and if it was cut within a frame, all
    later frames are out of step. *)
Theorem C74_short_writes_cannot_be_repeated_refuted :
  forall B : Build, let c := pcmW BigEndian 2 1 in
    rmap (fun x => (fst x, fbytes (ws_file (ds_state (snd x))))) (writeAgain c (fun x : list Z => x) [0] true 5 (opened c [7; 7] 2 1024 tt [4]) [[1]; [2]; [3]]) = Ok ([], [7; 7; 0; 1; 0; 2; 0; 1; 0; 2; 0; 3]) /\
    rmap (fun x => (fst x, fbytes (ws_file (ds_state (snd x))))) (writeAgain c (fun x : list Z => x) [0] true 5 (opened c [7; 7] 2 1024 tt [3]) [[1]; [2]; [3]]) = Ok ([], [7; 7; 0; 1; 0; 0; 1; 0; 2; 0; 3]).
Proof. intros []; split; vm_compute; reflexivity. Qed.
Print Assumptions C74_short_writes_cannot_be_repeated_refuted.

(** Frames of a block that is not complete are counted when they are given; when the block cannot be written, the write that completes it returns a short count but the
    frames counted before are lost, and when it cannot be written by afSyncFile or afCloseFile, these return success. *)
Theorem C74_block_frames_counted_but_lost_refuted :
  forall B : Build, let c := imaQTW 1 in let frames n := map (fun i => [Z.of_nat i]) (seq 0 n) in let new := opened c [7; 7] 2 1024 [mkState 0 0] in
    (* 63 frames are counted, the 64th is refused; nothing is in the file and nothing is kept for later *)
    (exists s, writeUntilShort c (fun x : list Z => x) [0] true (new [0]) [frames 63%nat; [[63]]] = Ok (63, s) /\ ws_file (ds_state s) = mkFile [7; 7] 2 /\ r_offset (ws_reb (ds_state s)) = 0) /\
    (* 10 frames are counted; afSyncFile and afCloseFile succeed although nothing could be written *)
    (exists s s', afWriteFramesD c (fun x : list Z => x) [0] true (new [-1]) (frames 10%nat) = Ok (10, s) /\ ds_happy s = true /\
       afSyncFileD c [0] true (fun f _ => f) s = Ok (true, s') /\ ds_happy s' = false /\ ws_file (ds_state s') = mkFile [7; 7] 2 /\
       afCloseFileD c [0] true (fun f _ => f) s = Ok (0, mkFile [7; 7] 2)).
Proof.
  intros B. cbv zeta. split.
  - assert (Q : rmap (fun x => (fst x, ws_file (ds_state (snd x)), r_offset (ws_reb (ds_state (snd x)))))
        (writeUntilShort (imaQTW 1) (fun x : list Z => x) [0] true (opened (imaQTW 1) [7; 7] 2 1024 [mkState 0 0] [0]) [map (fun i => [Z.of_nat i]) (seq 0 63); [[63]]]) = Ok (63, mkFile [7; 7] 2, 0)) by (destruct B; vm_compute; reflexivity).
    destruct (writeUntilShort _ _ _ _ _ _) as [[k s]| | |]; try discriminate Q. unfold rmap, rbind in Q. cbn [fst snd] in Q. exists s.
    assert (k = 63 /\ ws_file (ds_state s) = mkFile [7; 7] 2 /\ r_offset (ws_reb (ds_state s)) = 0) as (-> & -> & ->) by (repeat split; congruence). auto.
  - assert (Q : (do x <- afWriteFramesD (imaQTW 1) (fun x : list Z => x) [0] true (opened (imaQTW 1) [7; 7] 2 1024 [mkState 0 0] [-1]) (map (fun i => [Z.of_nat i]) (seq 0 10));
         do y <- afSyncFileD (imaQTW 1) [0] true (fun f _ => f) (snd x); do z <- afCloseFileD (imaQTW 1) [0] true (fun f _ => f) (snd x);
         Ok (fst x, ds_happy (snd x), fst y, ds_happy (snd y), ws_file (ds_state (snd y)), z)) = Ok (10, true, true, false, mkFile [7; 7] 2, (0, mkFile [7; 7] 2))) by (destruct B; vm_compute; reflexivity).
    destruct (afWriteFramesD _ _ _ _ _ _) as [[k s]| | |]; try discriminate Q. cbn [rbind snd fst] in Q. exists s.
    destruct (afSyncFileD _ _ _ _ s) as [[ok s']| | |]; try discriminate Q. cbn [rbind snd fst] in Q. exists s'.
    destruct (afCloseFileD _ _ _ _ s) as [z| | |]; try discriminate Q. cbn [rbind snd fst] in Q.
    repeat split; congruence.
Qed.
Print Assumptions C74_block_frames_counted_but_lost_refuted.
