(** * C53: the file after a crash, opened again

    [PropertiesWriter] and [PropertiesRoundTrip] show what a crash does to the audio data; here the whole file is opened: for the
    formats whose header says where the audio ends, the file opens with exactly the frames of the last sync; for the others it does not. *)
From Verif Require Import Prelude PreludeFacts ByteOrder G711 G711Proofs FileIO Reader ReaderSpec ReaderProofs PropertiesReader.
From Verif Require Import Writer WriterSpec WriterProofs WriterHistory Codecs CodecsProofs RoundTripProofs PropertiesWriter PropertiesRoundTrip.
From Verif Require Import HeaderIO FileRoundTrip.
From Coq Require Import Lia.

Lemma crash_file {V W} (B : Build) E p bpf (enc : list Z -> list Z) okF okE dec (g : list Z -> list Z) :
  memoryless E (WPerFrame p bpf enc) okF okE ->
  forall (conv : V -> list Z) (back : list Z -> W) junk upd hdr first cap e0 (ops : list wop) (ws : list (list V)),
    okF junk -> 0 <= first -> okE e0 -> keepsFor upd first (first + bpf * zlen (written ops)) bpf -> forall P, frontOK P hdr first (first + bpf * zlen (written ops)) bpf upd -> spaced false (ops ++ [Sync]) ->
    Forall (fun v => okF (conv v) /\ dec (enc (conv v)) = g (conv v)) (written ops) ->
    smallPCM (WPerFrame (E := E) p bpf enc) first (zlen (written ops)) -> Forall okF (map conv (concat ws)) ->
    exists st f0, wrun (WPerFrame p bpf enc) conv junk true upd (openWrite (WPerFrame p bpf enc) hdr first cap e0) (ops ++ [Sync]) = Ok st /\
      ws_file st = upd f0 (ws_track st) /\ P (fbytes f0) /\ w_first (ws_track st) = first /\
      w_totalf (ws_track st) = zlen (written ops) /\ w_dsize (ws_track st) = bpf * zlen (written ops) /\
      w_after (ws_track st) = first + bpf * zlen (written ops) /\
      (written ops <> [] -> first + bpf * zlen (written ops) <= zlen (fbytes (ws_file st))) /\
      forall X, crashImage B (WPerFrame p bpf enc) conv junk upd st ws X -> written ops <> [] \/ first <= zlen (fbytes (ws_file st)) ->
        zfirstn (first + bpf * zlen (written ops)) X = zfirstn (first + bpf * zlen (written ops)) (fbytes (ws_file st)) /\ zlen (fbytes (ws_file st)) <= zlen X /\
        first + bpf * zlen (written ops) <= zlen (fbytes (ws_file st)) /\
        readsAs B (PerFrame p bpf dec) back X first (zlen (written ops)) (map (fun v => back (g (conv v))) (written ops)).
Proof.
  intros HM conv back junk upd hdr first cap e0 ops ws Hj Hf He Hu P [HP1 HP2 HP3] Hsp Hok Hs Hws.
  destruct (memoryless_library _ _ _ _ HM) as [HL Hst]. pose proof (library_lawful _ _ _ _ HL) as Hlaw. pose proof Hlaw as [Hb Hl].
  assert (Hok1 : Forall okF (map conv (written ops))) by (apply Forall_map; eapply Forall_impl; [|exact Hok]; cbn; tauto).
  assert (Ew : written (ops ++ [Sync]) = written ops).
  { unfold written. rewrite map_app, concat_app. cbn. now rewrite app_nil_r. }
  destruct (history_ok (WPerFrame p bpf enc) conv junk upd okF okE Hlaw Hj hdr first cap e0 Hf He I Hst P (first + bpf * zlen (written ops)) (fun f t (HG : goodTrack _ _ _ t) HF => Hu f t (proj1 HG) (proj1 (proj2 (proj2 HG))) (proj2 (proj2 (proj2 HG))) (proj1 (proj2 HG)) HF) HP1
      (fun f t (HG : goodTrack _ _ _ t) => HP2 f t (proj1 HG) (proj1 (proj2 (proj2 HG))) (proj2 (proj2 (proj2 HG))) (proj1 (proj2 HG))) (ops ++ [Sync])
      (openWrite (WPerFrame p bpf enc) hdr first cap e0) [] false) as (st & R & _ & S); auto.
  { eapply (open_hinv (WPerFrame p bpf enc) junk okF okE) with (limit := first + bpf * zlen (written ops)); auto. } { now rewrite Ew. } { rewrite Ew, zlen_nil, Z.add_0_l. exact Hs. } { rewrite Ew, zlen_nil, Z.add_0_l. cbn [extent]. lia. }
  destruct (S ops eq_refl) as [(d & A & G & T1 & T2 & T3 & T4) [HI (f0 & HP0 & Ef & _)]]. rewrite Ew in *. cbn [app] in *. rewrite zlen_map in *.
  exists st, f0. split; [exact R|]. split; [exact Ef|]. split; [exact HP0|].
  assert (T0 : w_first (ws_track st) = first).
  { destruct HI as (b & D & d' & l & nv & HB & _ & _ & _ & _ & _ & _ & (Tb & _)). destruct HB as (_ & _ & _ & _ & _ & H6 & _). now rewrite <- Tb. }
  split; [exact T0|]. split; [exact T1|]. cbn [audio] in A. injection A as Ad.
  assert (Hd : Forall (fun x => zlen (enc x) = bpf /\ dec (enc x) = g x) (map conv (written ops))).
  { apply Forall_map. eapply Forall_impl; [|exact Hok]. cbn. intros v [H1 H2]. auto. }
  assert (Ld : zlen d = bpf * zlen (written ops)).
  { rewrite <- Ad. rewrite (zlen_chunk_frames _ bpf); [now rewrite !zlen_map|]. apply Forall_map. eapply Forall_impl; [|exact Hd]. cbn. tauto. }
  split; [lia|]. split; [lia|]. pose proof (zlen_nonneg (written ops)) as Zw.
  assert (Hfit : written ops <> [] -> first + bpf * zlen (written ops) <= zlen (fbytes (ws_file st))).
  { intros Hne. rewrite <- Ld. apply region_fits; auto. intros E0. rewrite E0, zlen_nil in Ld.
    destruct (written ops); [congruence|]. rewrite zlen_cons in Ld. pose proof (zlen_nonneg l). nia. }
  split; [exact Hfit|]. intros X [HX1 HX2] Hc.
  assert (F0 : first <= zlen (fbytes (ws_file st))) by (destruct Hc as [Hc|Hc]; [specialize (Hfit Hc); nia|exact Hc]).
  assert (F1 : first + bpf * zlen (written ops) <= zlen (fbytes (ws_file st))).
  { destruct (written ops) eqn:Ew0; [change (zlen (@nil V)) with 0; lia|]. apply Hfit. discriminate. }
  assert (NP : w_nextpos (ws_track st) = first + bpf * zlen (written ops)).
  { destruct (writes_after (WPerFrame p bpf enc) conv junk upd okF okE Hlaw Hj first cap e0 Hf I P _ HP1 st _ [] HI ltac:(constructor)) as (st' & d' & _ & _ & D & dd & EF & NP & RG & pl & Eall & Hpl).
    subst pl. rewrite app_nil_r in Eall. destruct EF as [-> _]. rewrite NP, <- Eall, Ad, Ld. reflexivity. }
  assert (C : zfirstn (first + bpf * zlen (written ops)) X = zfirstn (first + bpf * zlen (written ops)) (fbytes (ws_file st))).
  { apply zfirstn_ext; [lia|lia|]. intros i Hi. destruct (nth_error X i) as [x|] eqn:Ex.
    - destruct (HX2 i x Ex) as (ws1 & ws2 & st1 & Ews & R1 & N1).
      assert (Fw : Forall okF (map conv (concat ws1))) by (rewrite Ews, concat_app, map_app in Hws; now apply Forall_app in Hws).
      destruct (writes_after (WPerFrame p bpf enc) conv junk upd okF okE Hlaw Hj first cap e0 Hf I P _ HP1 st _ ws1 HI Fw) as (st' & d' & R2 & Ef2 & _).
      rewrite R1 in R2. assert (st1 = st') as -> by congruence. rewrite <- N1, Ef2.
      rewrite <- (nth_error_zfirstn _ (first + bpf * zlen (written ops)) i) by lia. rewrite ow_prefix by lia. apply nth_error_zfirstn; lia.
    - apply nth_error_None in Ex. unfold zlen in *. lia. }
  split; [exact C|]. split; [exact HX1|]. split; [exact F1|].
  rewrite <- (map_map (fun v => g (conv v)) back), <- (map_map conv g). apply holds_readsAs. rewrite <- (zlen_map conv).
  apply perFrame_holds with (enc := enc); [lia|exact Hb|exact Hd|]. rewrite Ad.
  rewrite <- (region_firstn X first (zlen d) (first + bpf * zlen (written ops))) by lia. rewrite C. rewrite region_firstn; [exact G|lia..].
Qed.

Lemma pcm_crash {V W} (B : Build) o (sgn : bool) n ch : (1 <= n)%nat -> 0 < ch ->
  forall (conv : V -> list Z) (back : list Z -> W) junk upd hdr first cap (ops : list wop) (ws : list (list V)),
    zlen junk = ch -> 0 <= first -> keepsFor upd first (first + Z.of_nat n * ch * zlen (written ops)) (Z.of_nat n * ch) -> forall P, frontOK P hdr first (first + Z.of_nat n * ch * zlen (written ops)) (Z.of_nat n * ch) upd -> spaced false (ops ++ [Sync]) ->
    Forall (fun v => frameOf ch (fits sgn n) (conv v)) (written ops) ->
    first + Z.of_nat n * ch * zlen (written ops) < 2 ^ 31 -> Forall (fun v => zlen (conv v) = ch) (concat ws) ->
    let total := zlen (written ops) in let size := Z.of_nat n * ch * total in
    exists st f0, wrun (pcmW o n ch) conv junk true upd (openWrite (pcmW o n ch) hdr first cap tt) (ops ++ [Sync]) = Ok st /\
      ws_file st = upd f0 (ws_track st) /\ P (fbytes f0) /\ w_first (ws_track st) = first /\ w_totalf (ws_track st) = total /\
      w_dsize (ws_track st) = size /\ w_after (ws_track st) = first + size /\
      (written ops <> [] -> first + size <= zlen (fbytes (ws_file st))) /\
      forall X, crashImage B (pcmW o n ch) conv junk upd st ws X -> written ops <> [] \/ first <= zlen (fbytes (ws_file st)) ->
        zfirstn (first + size) X = zfirstn (first + size) (fbytes (ws_file st)) /\ zlen (fbytes (ws_file st)) <= zlen X /\ first + size <= zlen (fbytes (ws_file st)) /\
        readsAs B (pcmR o sgn n ch) back X first total (map (fun v => back (conv v)) (written ops)).
Proof.
  intros Hn Hc conv back junk upd hdr first cap ops ws Hj Hf Hu P HP Hsp Hok Hs Hws total size.
  unfold pcmW, pcmR. apply (crash_file B unit true (Z.of_nat n * ch) _ (frameOf ch (fun _ => True)) (fun _ => True) _ (fun x => x)); auto.
  - apply (M_pcm o n ch Hn Hc).
  - split; [exact Hj|]. apply Forall_forall; auto.
  - eapply Forall_impl; [|exact Hok]. cbn. intros v [H1 H2]. split; [split; [exact H1|apply Forall_forall; auto]|].
    apply pcm_frame_roundtrip; [exact Hn|]. split; [exact H1|]. exact H2.
  - rewrite Forall_map. eapply Forall_impl; [|exact Hws]. cbn. intros v H1. split; [exact H1|apply Forall_forall; auto].
Qed.

Lemma ulaw_crash {V W} (B : Build) ch : 0 < ch ->
  forall (conv : V -> list Z) (back : list Z -> W) junk upd hdr first cap (ops : list wop) (ws : list (list V)),
    zlen junk = ch -> 0 <= first -> keepsFor upd first (first + ch * zlen (written ops)) ch -> forall P, frontOK P hdr first (first + ch * zlen (written ops)) ch upd -> spaced false (ops ++ [Sync]) ->
    Forall (fun v => zlen (conv v) = ch) (written ops) -> Forall (fun v => zlen (conv v) = ch) (concat ws) ->
    let total := zlen (written ops) in let size := ch * total in
    exists st f0, wrun (ulawW ch) conv junk true upd (openWrite (ulawW ch) hdr first cap tt) (ops ++ [Sync]) = Ok st /\
      ws_file st = upd f0 (ws_track st) /\ P (fbytes f0) /\ w_first (ws_track st) = first /\ w_totalf (ws_track st) = total /\
      w_dsize (ws_track st) = size /\ w_after (ws_track st) = first + size /\
      (written ops <> [] -> first + size <= zlen (fbytes (ws_file st))) /\
      forall X, crashImage B (ulawW ch) conv junk upd st ws X -> written ops <> [] \/ first <= zlen (fbytes (ws_file st)) ->
        zfirstn (first + size) X = zfirstn (first + size) (fbytes (ws_file st)) /\ zlen (fbytes (ws_file st)) <= zlen X /\ first + size <= zlen (fbytes (ws_file st)) /\
        readsAs B (ulawR ch) back X first total (map (fun v => back (map (fun x => ulaw2linear (linear2ulaw x)) (conv v))) (written ops)).
Proof.
  intros Hc conv back junk upd hdr first cap ops ws Hj Hf Hu P HP Hsp Hok Hws total size.
  assert (Ht : forall l : list Z, Forall (fun _ => True) l) by (intros; apply Forall_forall; auto).
  unfold ulawW, ulawR. apply (crash_file B unit false ch _ (frameOf ch (fun _ => True)) (fun _ => True) _ (map (fun x => ulaw2linear (linear2ulaw x)))); auto.
  - apply (M_ulaw ch Hc).
  - split; auto.
  - eapply Forall_impl; [|exact Hok]. cbn. intros v H1. split; [split; auto|]. unfold ulaw2linear_buf, linear2ulaw_buf. rewrite map_map.
    apply map_ext. intros x. pose proof (ulaw_dec_range _ (linear2ulaw_byte x)). apply sN_small; [lia|]. change (2 ^ (16 - 1)) with 32768. lia.
  - exact I.
  - rewrite Forall_map. eapply Forall_impl; [|exact Hws]. cbn. intros v H1. split; [exact H1|apply Forall_forall; auto].
Qed.

Lemma alaw_crash {V W} (B : Build) ch : 0 < ch ->
  forall (conv : V -> list Z) (back : list Z -> W) junk upd hdr first cap (ops : list wop) (ws : list (list V)),
    zlen junk = ch -> 0 <= first -> keepsFor upd first (first + ch * zlen (written ops)) ch -> forall P, frontOK P hdr first (first + ch * zlen (written ops)) ch upd -> spaced false (ops ++ [Sync]) ->
    Forall (fun v => zlen (conv v) = ch) (written ops) -> Forall (fun v => zlen (conv v) = ch) (concat ws) ->
    let total := zlen (written ops) in let size := ch * total in
    exists st f0, wrun (alawW ch) conv junk true upd (openWrite (alawW ch) hdr first cap tt) (ops ++ [Sync]) = Ok st /\
      ws_file st = upd f0 (ws_track st) /\ P (fbytes f0) /\ w_first (ws_track st) = first /\ w_totalf (ws_track st) = total /\
      w_dsize (ws_track st) = size /\ w_after (ws_track st) = first + size /\
      (written ops <> [] -> first + size <= zlen (fbytes (ws_file st))) /\
      forall X, crashImage B (alawW ch) conv junk upd st ws X -> written ops <> [] \/ first <= zlen (fbytes (ws_file st)) ->
        zfirstn (first + size) X = zfirstn (first + size) (fbytes (ws_file st)) /\ zlen (fbytes (ws_file st)) <= zlen X /\ first + size <= zlen (fbytes (ws_file st)) /\
        readsAs B (alawR ch) back X first total (map (fun v => back (map (fun x => alaw2linear (linear2alaw x)) (conv v))) (written ops)).
Proof.
  intros Hc conv back junk upd hdr first cap ops ws Hj Hf Hu P HP Hsp Hok Hws total size.
  assert (Ht : forall l : list Z, Forall (fun _ => True) l) by (intros; apply Forall_forall; auto).
  unfold alawW, alawR. apply (crash_file B unit false ch _ (frameOf ch (fun _ => True)) (fun _ => True) _ (map (fun x => alaw2linear (linear2alaw x)))); auto.
  - apply (M_alaw ch Hc).
  - split; auto.
  - eapply Forall_impl; [|exact Hok]. cbn. intros v H1. split; [split; auto|]. unfold alaw2linear_buf, linear2alaw_buf. rewrite map_map.
    apply map_ext. intros x. pose proof (alaw_dec_range _ (linear2alaw_byte x)). apply sN_small; [lia|]. change (2 ^ (16 - 1)) with 32768. lia.
  - exact I.
  - rewrite Forall_map. eapply Forall_impl; [|exact Hws]. cbn. intros v H1. split; [exact H1|apply Forall_forall; auto].
Qed.

(** Dying right after the writes is one of the possible crashes. *)
Lemma crash_whole {V E} (B : Build) (c : wcodec (list Z) E) (conv : V -> list Z) junk upd st ws st1 :
  wrun c conv junk true upd st (map Write ws) = Ok st1 -> zlen (fbytes (ws_file st)) <= zlen (fbytes (ws_file st1)) -> crashImage B c conv junk upd st ws (fbytes (ws_file st1)).
Proof. intros R L. split; [exact L|]. intros i x Hx. exists ws, [], st1. rewrite app_nil_r. auto. Qed.
(** So is dying before the last bytes of the file were written. *)
Lemma crash_part {V E} (B : Build) (c : wcodec (list Z) E) (conv : V -> list Z) junk upd st ws st1 X rest :
  wrun c conv junk true upd st (map Write ws) = Ok st1 -> zlen (fbytes (ws_file st)) <= zlen X -> fbytes (ws_file st1) = X ++ rest -> crashImage B c conv junk upd st ws X.
Proof.
  intros R L E0. split; [exact L|]. intros i x Hx. exists ws, [], st1. rewrite app_nil_r. split; [reflexivity|]. split; [exact R|]. rewrite E0, nth_error_app1; [exact Hx|]. apply nth_error_Some. congruence.
Qed.
