(** * Whole files: what the reader of a header needs to know about the file a history of writes left *)
From Verif Require Import Prelude PreludeFacts ByteOrder G711 G711Proofs FileIO Reader ReaderSpec ReaderProofs PropertiesReader.
From Verif Require Import Writer WriterSpec WriterProofs WriterHistory Codecs CodecsProofs RoundTripProofs PropertiesWriter PropertiesRoundTrip.
From Verif Require Import HeaderIO.

(** What is known of the part of the file before the audio data: kept by writing the data and by header updates. *)
Record frontOK (P : list Z -> Prop) (hdr : list Z) (first limit bpf : Z) (upd : file -> wtrack -> file) : Prop := {
  fo_write : forall b p d, first <= p -> p + zlen d <= limit -> P b -> P (overwrite b p d);
  fo_upd : forall f t, w_first t = first -> w_after t = first + w_dsize t -> w_dsize t = bpf * w_totalf t -> first <= w_after t <= limit ->
    P (fbytes f) -> P (fbytes (upd f t));
  fo_init : P hdr }.
(** Header updates leave the audio data alone, for the tracks that occur. *)
Definition keepsFor (upd : file -> wtrack -> file) (first limit bpf : Z) : Prop := forall f t, w_first t = first -> w_after t = first + w_dsize t -> w_dsize t = bpf * w_totalf t ->
  first <= w_after t <= limit -> w_after t = first \/ w_after t <= zlen (fbytes f) -> region (fbytes (upd f t)) first (w_after t - first) = region (fbytes f) first (w_after t - first).
Lemma updKeeps_for upd first limit bpf : updKeeps upd first -> keepsFor upd first limit bpf.
Proof. intros H f t H1 _ _ _ _. now apply H. Qed.
Lemma frontOK_True hdr first limit bpf upd : frontOK (fun _ => True) hdr first limit bpf upd.
Proof. split; auto. Qed.

Lemma perFrame_file {V W} (B : Build) E p bpf (enc : list Z -> list Z) okF okE dec (g : list Z -> list Z) :
  memoryless E (WPerFrame p bpf enc) okF okE ->
  forall (conv : V -> list Z) (back : list Z -> W) junk upd hdr first cap e0 (ops : list wop),
    okF junk -> 0 <= first -> okE e0 -> keepsFor upd first (first + bpf * zlen (written ops)) bpf -> forall P, frontOK P hdr first (first + bpf * zlen (written ops)) bpf upd -> spaced false (ops ++ [Sync]) ->
    Forall (fun v => okF (conv v) /\ dec (enc (conv v)) = g (conv v)) (written ops) ->
    smallPCM (WPerFrame (E := E) p bpf enc) first (zlen (written ops)) ->
    exists st f0, wrun (WPerFrame p bpf enc) conv junk true upd (openWrite (WPerFrame p bpf enc) hdr first cap e0) (ops ++ [Sync]) = Ok st /\
      ws_file st = upd f0 (ws_track st) /\ P (fbytes f0) /\ w_first (ws_track st) = first /\
      w_totalf (ws_track st) = zlen (written ops) /\ w_dsize (ws_track st) = bpf * zlen (written ops) /\
      w_after (ws_track st) = first + bpf * zlen (written ops) /\
      (written ops <> [] -> first + bpf * zlen (written ops) <= zlen (fbytes (ws_file st))) /\
      (written ops <> [] \/ first <= zlen (fbytes (ws_file st)) ->
       readsAs B (PerFrame p bpf dec) back (fbytes (ws_file st)) first (zlen (written ops)) (map (fun v => back (g (conv v))) (written ops))).
Proof.
  intros HM conv back junk upd hdr first cap e0 ops Hj Hf He Hu P [HP1 HP2 HP3] Hsp Hok Hs.
  destruct (memoryless_library _ _ _ _ HM) as [HL Hst]. pose proof (library_lawful _ _ _ _ HL) as Hlaw. pose proof Hlaw as [Hb Hl].
  assert (Hok1 : Forall okF (map conv (written ops))) by (apply Forall_map; eapply Forall_impl; [|exact Hok]; cbn; tauto).
  assert (Ew : written (ops ++ [Sync]) = written ops).
  { unfold written. rewrite map_app, concat_app. cbn. now rewrite app_nil_r. }
  destruct (history_ok (WPerFrame p bpf enc) conv junk upd okF okE Hlaw Hj hdr first cap e0 Hf He I Hst P (first + bpf * zlen (written ops)) (fun f t (HG : goodTrack _ _ _ t) HF => Hu f t (proj1 HG) (proj1 (proj2 (proj2 HG))) (proj2 (proj2 (proj2 HG))) (proj1 (proj2 HG)) HF) HP1
      (fun f t (HG : goodTrack _ _ _ t) => HP2 f t (proj1 HG) (proj1 (proj2 (proj2 HG))) (proj2 (proj2 (proj2 HG))) (proj1 (proj2 HG))) (ops ++ [Sync])
      (openWrite (WPerFrame p bpf enc) hdr first cap e0) [] false) as (st & R & _ & S); auto.
  { eapply (open_hinv (WPerFrame p bpf enc) junk okF okE) with (limit := first + bpf * zlen (written ops)); auto. } { now rewrite Ew. } { rewrite Ew, zlen_nil, Z.add_0_l. exact Hs. } { rewrite Ew, zlen_nil, Z.add_0_l. cbn [extent]. lia. }
  destruct (S ops eq_refl) as [(d & A & G & T1 & T2 & T3 & T4) [HI (f0 & HP0 & Ef & _)]]. rewrite Ew in *. cbn [app] in *. rewrite zlen_map in *.
  exists st, f0. split; [exact R|]. split; [exact Ef|]. split; [exact HP0|].
  assert (T0 : w_first (ws_track st) = first).
  { destruct HI as (b & D & d' & l & nv & HB & _ & _ & _ & _ & _ & _ & (Tb & _)). destruct HB as (_ & _ & _ & _ & _ & H6 & _). now rewrite <- Tb. }
  split; [exact T0|]. split; [exact T1|]. cbn [audio] in A. injection A as Ad.
  assert (Hd : Forall (fun x => zlen (enc x) = bpf /\ dec (enc x) = g x) (map conv (written ops))).
  { apply Forall_map. eapply Forall_impl; [|exact Hok]. cbn. intros v [H1 H2]. auto. }
  assert (Ld : zlen d = bpf * zlen (written ops)).
  { rewrite <- Ad. rewrite (zlen_chunk_frames _ bpf); [now rewrite !zlen_map|]. apply Forall_map. eapply Forall_impl; [|exact Hd]. cbn. tauto. }
  split; [lia|]. split; [lia|]. pose proof (zlen_nonneg (written ops)) as Zw.
  assert (Hfit : written ops <> [] -> first + bpf * zlen (written ops) <= zlen (fbytes (ws_file st))).
  { intros Hne. rewrite <- Ld. apply region_fits; auto. intros E0. rewrite E0, zlen_nil in Ld.
    destruct (written ops); [congruence|]. rewrite zlen_cons in Ld. pose proof (zlen_nonneg l). nia. }
  split; [exact Hfit|]. intros Hc.
  rewrite <- (map_map (fun v => g (conv v)) back), <- (map_map conv g). apply holds_readsAs. rewrite <- (zlen_map conv).
  assert (first <= zlen (fbytes (ws_file st))) by (destruct Hc as [Hc|Hc]; [specialize (Hfit Hc); nia|exact Hc]).
  apply perFrame_holds with (enc := enc); [lia|exact Hb|exact Hd|]. rewrite Ad. exact G.
Qed.

(** The PCM and G.711 instances. *)
Lemma pcm_file {V W} (B : Build) o (sgn : bool) n ch : (1 <= n)%nat -> 0 < ch ->
  forall (conv : V -> list Z) (back : list Z -> W) junk upd hdr first cap (ops : list wop),
    zlen junk = ch -> 0 <= first -> keepsFor upd first (first + Z.of_nat n * ch * zlen (written ops)) (Z.of_nat n * ch) -> forall P, frontOK P hdr first (first + Z.of_nat n * ch * zlen (written ops)) (Z.of_nat n * ch) upd -> spaced false (ops ++ [Sync]) ->
    Forall (fun v => frameOf ch (fits sgn n) (conv v)) (written ops) ->
    first + Z.of_nat n * ch * zlen (written ops) < 2 ^ 31 ->
    let total := zlen (written ops) in let size := Z.of_nat n * ch * total in
    exists st f0, wrun (pcmW o n ch) conv junk true upd (openWrite (pcmW o n ch) hdr first cap tt) (ops ++ [Sync]) = Ok st /\
      ws_file st = upd f0 (ws_track st) /\ P (fbytes f0) /\ w_first (ws_track st) = first /\ w_totalf (ws_track st) = total /\
      w_dsize (ws_track st) = size /\ w_after (ws_track st) = first + size /\
      (written ops <> [] -> first + size <= zlen (fbytes (ws_file st))) /\
      (written ops <> [] \/ first <= zlen (fbytes (ws_file st)) ->
       readsAs B (pcmR o sgn n ch) back (fbytes (ws_file st)) first total (map (fun v => back (conv v)) (written ops))).
Proof.
  intros Hn Hc conv back junk upd hdr first cap ops Hj Hf Hu P HP Hsp Hok Hs total size.
  unfold pcmW, pcmR. apply (perFrame_file B unit true (Z.of_nat n * ch) _ (frameOf ch (fun _ => True)) (fun _ => True) _ (fun x => x)); auto.
  - apply (M_pcm o n ch Hn Hc).
  - split; [exact Hj|]. apply Forall_forall; auto.
  - eapply Forall_impl; [|exact Hok]. cbn. intros v [H1 H2]. split; [split; [exact H1|apply Forall_forall; auto]|].
    apply pcm_frame_roundtrip; [exact Hn|]. split; [exact H1|]. exact H2.
Qed.

Lemma ulaw_file {V W} (B : Build) ch : 0 < ch ->
  forall (conv : V -> list Z) (back : list Z -> W) junk upd hdr first cap (ops : list wop),
    zlen junk = ch -> 0 <= first -> keepsFor upd first (first + ch * zlen (written ops)) ch -> forall P, frontOK P hdr first (first + ch * zlen (written ops)) ch upd -> spaced false (ops ++ [Sync]) ->
    Forall (fun v => zlen (conv v) = ch) (written ops) ->
    let total := zlen (written ops) in let size := ch * total in
    exists st f0, wrun (ulawW ch) conv junk true upd (openWrite (ulawW ch) hdr first cap tt) (ops ++ [Sync]) = Ok st /\
      ws_file st = upd f0 (ws_track st) /\ P (fbytes f0) /\ w_first (ws_track st) = first /\ w_totalf (ws_track st) = total /\
      w_dsize (ws_track st) = size /\ w_after (ws_track st) = first + size /\
      (written ops <> [] -> first + size <= zlen (fbytes (ws_file st))) /\
      (written ops <> [] \/ first <= zlen (fbytes (ws_file st)) ->
       readsAs B (ulawR ch) back (fbytes (ws_file st)) first total (map (fun v => back (map (fun x => ulaw2linear (linear2ulaw x)) (conv v))) (written ops))).
Proof.
  intros Hc conv back junk upd hdr first cap ops Hj Hf Hu P HP Hsp Hok total size.
  assert (Ht : forall l : list Z, Forall (fun _ => True) l) by (intros; apply Forall_forall; auto).
  unfold ulawW, ulawR. apply (perFrame_file B unit false ch _ (frameOf ch (fun _ => True)) (fun _ => True) _ (map (fun x => ulaw2linear (linear2ulaw x)))); auto.
  - apply (M_ulaw ch Hc).
  - split; auto.
  - eapply Forall_impl; [|exact Hok]. cbn. intros v H1. split; [split; auto|]. unfold ulaw2linear_buf, linear2ulaw_buf. rewrite map_map.
    apply map_ext. intros x. pose proof (ulaw_dec_range _ (linear2ulaw_byte x)). apply sN_small; [lia|]. change (2 ^ (16 - 1)) with 32768. lia.
  - exact I.
Qed.

Lemma alaw_file {V W} (B : Build) ch : 0 < ch ->
  forall (conv : V -> list Z) (back : list Z -> W) junk upd hdr first cap (ops : list wop),
    zlen junk = ch -> 0 <= first -> keepsFor upd first (first + ch * zlen (written ops)) ch -> forall P, frontOK P hdr first (first + ch * zlen (written ops)) ch upd -> spaced false (ops ++ [Sync]) ->
    Forall (fun v => zlen (conv v) = ch) (written ops) ->
    let total := zlen (written ops) in let size := ch * total in
    exists st f0, wrun (alawW ch) conv junk true upd (openWrite (alawW ch) hdr first cap tt) (ops ++ [Sync]) = Ok st /\
      ws_file st = upd f0 (ws_track st) /\ P (fbytes f0) /\ w_first (ws_track st) = first /\ w_totalf (ws_track st) = total /\
      w_dsize (ws_track st) = size /\ w_after (ws_track st) = first + size /\
      (written ops <> [] -> first + size <= zlen (fbytes (ws_file st))) /\
      (written ops <> [] \/ first <= zlen (fbytes (ws_file st)) ->
       readsAs B (alawR ch) back (fbytes (ws_file st)) first total (map (fun v => back (map (fun x => alaw2linear (linear2alaw x)) (conv v))) (written ops))).
Proof.
  intros Hc conv back junk upd hdr first cap ops Hj Hf Hu P HP Hsp Hok total size.
  assert (Ht : forall l : list Z, Forall (fun _ => True) l) by (intros; apply Forall_forall; auto).
  unfold alawW, alawR. apply (perFrame_file B unit false ch _ (frameOf ch (fun _ => True)) (fun _ => True) _ (map (fun x => alaw2linear (linear2alaw x)))); auto.
  - apply (M_alaw ch Hc).
  - split; auto.
  - eapply Forall_impl; [|exact Hok]. cbn. intros v H1. split; [split; auto|]. unfold alaw2linear_buf, linear2alaw_buf. rewrite map_map.
    apply map_ext. intros x. pose proof (alaw_dec_range _ (linear2alaw_byte x)). apply sN_small; [lia|]. change (2 ^ (16 - 1)) with 32768. lia.
  - exact I.
Qed.

(** Header updates: writing [x] at [p] keeps everything from [p + length of x] on, and what is before [p]. *)
Lemma ow_region_after b p d from n : 0 <= p -> p + zlen d <= from -> 0 <= n -> region (overwrite b p d) from n = region b from n \/ zlen b < from.
Proof.
  intros Hp Hf Hn. destruct (Z.lt_ge_cases (zlen b) from) as [|Hb]; [auto|left]. destruct d as [|x d]; [reflexivity|]. set (a := x :: d) in *.
  destruct (ow_unfold b p a Hp ltac:(discriminate)) as (pre & L & -> & _). unfold region. f_equal.
  pose proof (zlen_nonneg a). rewrite zskipn_app_r, L by lia. rewrite zskipn_app_r by lia. rewrite zskipn_zskipn by lia. f_equal. lia.
Qed.
Lemma ow_region_after' b p d from n : 0 <= p -> p + zlen d <= from -> 0 <= n -> region (overwrite b p d) from n = region b from n.
Proof.
  intros Hp Hf Hn. destruct (ow_region_after b p d from n Hp Hf Hn) as [E|Hb]; [exact E|]. pose proof (zlen_nonneg b). pose proof (zlen_nonneg d).
  unfold region. rewrite (zskipn_all from b) by lia. destruct d as [|x d]; [cbn [overwrite]; now rewrite (zskipn_all from b) by lia|].
  set (a := x :: d) in *. rewrite zskipn_all; [reflexivity|]. rewrite ow_len by (auto; discriminate). lia.
Qed.

(** The bytes of the header itself. *)
Lemma ow_head b d : exists rest, overwrite b 0 d = d ++ rest.
Proof.
  destruct d as [|x d]; [exists b; reflexivity|]. destruct (ow_unfold b 0 (x :: d) ltac:(lia) ltac:(discriminate)) as (pre & L & -> & _).
  destruct pre; [|rewrite zlen_cons in L; pose proof (zlen_nonneg pre); lia]. eexists. reflexivity.
Qed.

(** Reading the file again: header and frames. *)
Definition reopens {R F W} (B : Build) (read : hP (parsedOf R)) (bytes : list Z) (r : codec F) (back : F -> W) (fm : formatOf R) (first total : Z) (frames : list W) : Prop :=
  exists size f', read (mkFile bytes 0) = Ok (Some (mkParsed fm first size total, f')) /\ readsAs B r back bytes first total frames.

(** Patching a file of known layout. *)
Lemma ow_mid pre mid d post : zlen mid = zlen d -> overwrite (pre ++ mid ++ post) (zlen pre) d = pre ++ d ++ post.
Proof.
  intros L. destruct d as [|x d].
  - destruct mid; [reflexivity|rewrite zlen_cons, zlen_nil in L; pose proof (zlen_nonneg mid); lia].
  - unfold overwrite. set (a := x :: d) in *. pose proof (zlen_nonneg (mid ++ post)). pose proof (zlen_nonneg a). rewrite zfirstn_app_l by (rewrite zlen_app; lia).
    rewrite zfirstn_exact. f_equal. f_equal. rewrite zskipn_app_r by lia. replace (zlen pre + zlen a - zlen pre) with (zlen mid) by lia. apply zskipn_exact.
Qed.
Lemma ow_past h rest p d : zlen h <= p -> overwrite (h ++ rest) p d = h ++ overwrite rest (p - zlen h) d.
Proof.
  intros Hp. destruct d as [|x d]; [reflexivity|]. unfold overwrite. set (a := x :: d). pose proof (zlen_nonneg a). pose proof (zlen_nonneg h).
  rewrite <- app_assoc. rewrite zlen_app. replace (p - (zlen h + zlen rest)) with (p - zlen h - zlen rest) by lia.
  rewrite zfirstn_app_r by lia. rewrite <- app_assoc. f_equal. f_equal. f_equal. rewrite zskipn_app_r by lia. f_equal. lia.
Qed.

(** A file that agrees with another one beyond its header has the same header. *)
Lemma same_front {safe : Z} {X b} (hdr rest : list Z) : zfirstn safe X = zfirstn safe b -> safe <= zlen X -> b = hdr ++ rest -> zlen hdr <= safe -> X = hdr ++ zskipn (zlen hdr) X.
Proof.
  intros E L -> H. pose proof (zlen_nonneg hdr). rewrite <- (zfirstn_skipn (zlen hdr) X) at 1. f_equal. apply (f_equal (zfirstn (zlen hdr))) in E. rewrite !zfirstn_zfirstn, !Z.min_l in E by lia. rewrite E. apply zfirstn_exact.
Qed.
