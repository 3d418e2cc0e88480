(** * C37, C22, C55: CAF files with ALAC *)
From Verif Require Import Prelude PreludeFacts ByteOrder FileIO Rebuffer RebufferSpec RebufferProofs Reader ReaderSpec ReaderProofs Writer WriterProofs Codecs HeaderIO FileRoundTrip Chunks Float FloatBits PacketTable PropertiesPacketTable CAF PropertiesCAF PropertiesForeign PropertiesForeign2 PropertiesForeign3.
From Verif Require Import ALACBits ALACGolomb ALACGolombProofs ALACPredict ALACCodec ALACCodecProofs ALACElements ALACPacket ALACSize ALACTotal ALACSearch ALACStream ALACModule ALACWriterProofs ALACReaderProofs.

(** ** The configuration *)
Lemma alacCookie_len fr depth channels rate : zlen (alacCookie fr depth channels rate) = if 2 <? channels then 48 else 24.
Proof. unfold alacCookie, alacConfig, beU, beW. destruct (2 <? channels); rewrite ?zlen_app, ?sampleBytes_zlen; reflexivity. Qed.

(** The decoder's Init understands what the encoder's GetMagicCookie writes, whatever the sample rate. *)
Lemma alacInit_ok depth channels rate : depthOk depth -> 1 <= channels <= 8 -> alacInit (alacCookie 4096 depth channels rate) = Ok (Some (cookie 4096 depth)).
Proof.
  intros Hd Hc. unfold alacCookie, alacConfig. assert (L : zlen (beU rate) = 4) by (unfold beU; now rewrite sampleBytes_zlen).
  destruct (beU rate) as [|a [|b [|c [|d [|e l]]]]]; try discriminate L; [|rewrite !zlen_cons in L; pose proof (zlen_nonneg l); lia].
  assert (C : channels = 1 \/ channels = 2 \/ channels = 3 \/ channels = 4 \/ channels = 5 \/ channels = 6 \/ channels = 7 \/ channels = 8) by lia.
  destruct Hd as [-> | [-> | [-> | ->]]]; destruct C as [-> | [-> | [-> | [-> | [-> | [-> | [-> | ->]]]]]]]; reflexivity.
Qed.

(** ** The layout of the file *)
Definition alacFlag (depth : Z) : Z := if depth =? 16 then 1 else if depth =? 20 then 2 else if depth =? 24 then 3 else 4.
Definition alacChunks (rate : spec_float) (depth channels : Z) (ck data : list Z) (pt : ptable) : list (list Z * list Z) :=
  [descChunk (bits64 rate) T_alac (alacFlag depth) 0 4096 channels depth; (T_kuki, ck); audioChunk 0 data; (T_pakt, paktBody pt)].

Lemma alac_layout host rate depth channels ck data t pt : depthOk depth ->
  zlen ck = (if 2 <? channels then 48 else 24) -> w_dsize t = zlen data -> w_after t = alacFirst channels + zlen data ->
  let fm := mkFmt rate TwosComp depth channels host CALAC 4096 0 in
  fbytes (alacUpdate ck (mkFile (overwrite (alacInitFile fm) (alacFirst channels) data) (alacFirst channels + zlen data)) t pt) = cafFile (alacChunks rate depth channels ck data pt).
Proof.
  intros Hd Lk Ed Ea fm. assert (Lz : zlen (zrepeat 0 (if 2 <? channels then 48 else 24)) = zlen ck) by (rewrite zlen_repeat by (destruct (2 <? channels); lia); now rewrite Lk).
  assert (Lh : zlen (alacInitFile fm) = alacFirst channels).
  { unfold alacInitFile, alacFirst. rewrite !zlen_app, cafPre_len, cafData_len. unfold cafKuki. rewrite !zlen_app. unfold be8. rewrite sampleBytes_zlen. change (f_chan fm) with channels. rewrite Lz, Lk. change (zlen T_kuki) with 4. change (Z.of_nat 8) with 8. lia. }
  assert (E0 : overwrite (alacInitFile fm) (alacFirst channels) data = alacInitFile fm ++ data).
  { rewrite <- Lh. pose proof (ow_past (alacInitFile fm) [] (zlen (alacInitFile fm)) data ltac:(lia)) as E. rewrite app_nil_r in E. rewrite E, Z.sub_diag. f_equal. pose proof (ow_mid [] data data []) as M. cbn [app] in M.
    destruct data as [|x d]; [reflexivity|]. unfold overwrite. change (zlen (@nil Z)) with 0. unfold zfirstn, zskipn. rewrite firstn_nil, skipn_nil. cbn [app]. now rewrite app_nil_r. }
  unfold alacUpdate, fwrite, fseek. cbn [fbytes fpos]. rewrite E0. unfold alacInitFile. change (f_chan fm) with channels. set (k0 := cafKuki _). set (k1 := cafKuki ck).
  assert (Lkk : zlen k0 = zlen k1) by (unfold k0, k1, cafKuki, be8; rewrite !zlen_app, !sampleBytes_zlen, Lz; reflexivity).
  assert (Lk1 : zlen k1 = 12 + zlen ck) by (unfold k1, cafKuki, be8; rewrite !zlen_app, !sampleBytes_zlen; change (zlen T_kuki) with 4; lia).
  rewrite <- !app_assoc. rewrite <- (cafPre_len fm) at 1. rewrite ow_mid by exact Lkk. clearbody k0.
  replace (52 + (12 + zlen ck)) with (zlen (cafPre fm ++ k1)) by (rewrite zlen_app, cafPre_len, Lk1; reflexivity).
  rewrite (app_assoc (cafPre fm) k1), ow_mid by (rewrite !cafData_len; reflexivity).
  set (body := (cafPre fm ++ k1) ++ cafData (w_dsize t + 4) ++ data).
  assert (Lb : zlen body = w_after t).
  { unfold body. rewrite !zlen_app, cafPre_len, cafData_len, Lk1, Ea. unfold alacFirst. rewrite Lk. lia. }
  rewrite <- Lb. pose proof (ow_past body [] (zlen body) (paktChunk pt) ltac:(lia)) as E. rewrite app_nil_r in E. rewrite E, Z.sub_diag.
  assert (E1 : overwrite [] 0 (paktChunk pt) = paktChunk pt).
  { unfold overwrite. destruct (paktChunk pt) as [|x d]; [reflexivity|]. change (zlen (@nil Z)) with 0. unfold zfirstn, zskipn. rewrite firstn_nil, skipn_nil. cbn [app]. now rewrite app_nil_r. }
  rewrite E1. unfold body. clear E E1 E0 Lb body. rewrite Ed. unfold alacChunks, cafFile, descChunk, audioChunk. rewrite !cafBytes_cons. change (cafBytes []) with (@nil Z). rewrite app_nil_r.
  unfold cafPre, cafMagic, cafDesc, fm, cafFields, k1, cafKuki, cafData, paktChunk. cbn [f_comp f_width f_sf f_order f_bpp f_fpp f_chan f_rate].
  assert (Ef : (if depth =? 16 then 1 else if depth =? 20 then 2 else if depth =? 24 then 3 else if depth =? 32 then 4 else match host with LittleEndian => 2 | BigEndian => 0 end + 0) = alacFlag depth)
    by (destruct Hd as [-> | [-> | [-> | ->]]]; reflexivity).
  rewrite Ef.
  assert (L1 : zlen (be8 (bits64 rate) ++ T_alac ++ beU (alacFlag depth) ++ beU 0 ++ beU 4096 ++ beU channels ++ beU depth) = 32) by (unfold be8, beU; rewrite !zlen_app, !sampleBytes_zlen; reflexivity).
  assert (L2 : zlen (beU 0 ++ data) = zlen data + 4) by (unfold beU; rewrite zlen_app, sampleBytes_zlen; lia).
  assert (L3 : zlen (paktBody pt) = 24 + zlen (paktTable (pt_sizes pt))) by (unfold paktBody; rewrite !zlen_app, !sampleBytes_zlen; lia).
  rewrite L1, L2, L3, <- !app_assoc. reflexivity.
Qed.

(** Opening such a file. *)
Lemma alac_header (B : Build) host rate depth channels ck data pt fuel : depthOk depth -> 1 <= channels <= 8 -> validD rate = true ->
  zlen ck = (if 2 <? channels then 48 else 24) ->
  Forall (fun x => 1 <= x < 2 ^ 32) (pt_sizes pt) -> pt_sizes pt <> [] -> - 2 ^ 63 <= pt_valid pt < 2 ^ 63 -> - 2 ^ 31 <= pt_priming pt < 2 ^ 31 -> - 2 ^ 31 <= pt_remainder pt < 2 ^ 31 -> zlen (pt_sizes pt) < 2 ^ 63 ->
  let b := cafFile (alacChunks rate depth channels ck data pt) in
  zlen b < 2 ^ 62 -> (4 <= fuel)%nat ->
  exists f', cafRead host fuel (mkFile b 0) =
    Ok (Some (CafSt (Some (mkFmt rate TwosComp depth channels host CALAC 4096 0)) (alacFirst channels) (zlen data) (pt_valid pt) (Some pt) (Some ck), f')).
Proof.
  intros Hd Hc Hr Lk P1 P2 P3 P4 P5 P6 b Hl Hfu. destruct (bits64_round rate Hr) as [Rb Er]. pose proof (zlen_nonneg data) as Zd. pose proof (zlen_nonneg ck) as Zk.
  assert (H : zskipn 8 b = cafBytes (alacChunks rate depth channels ck data pt)) by (unfold b, cafFile; exact (zskipn_exact (T_caff ++ [0; 1; 0; 0]) _)).
  assert (Eb : b = (T_caff ++ [0; 1; 0; 0] ++ cafBytes [descChunk (bits64 rate) T_alac (alacFlag depth) 0 4096 channels depth; (T_kuki, ck); audioChunk 0 data] ++ T_pakt ++ be8 (zlen (paktBody pt))) ++ paktBody pt ++ []).
  { unfold b, cafFile, alacChunks. change [?a; ?b'; ?c; ?d] with ([a; b'; c] ++ [d]). rewrite cafBytes_app. rewrite (cafBytes_cons T_pakt). change (cafBytes []) with (@nil Z). rewrite !app_nil_r, <- !app_assoc. reflexivity. }
  set (pre := T_caff ++ [0; 1; 0; 0] ++ cafBytes [descChunk (bits64 rate) T_alac (alacFlag depth) 0 4096 channels depth; (T_kuki, ck); audioChunk 0 data] ++ T_pakt ++ be8 (zlen (paktBody pt))) in Eb.
  assert (Lpre : zlen pre = 52 + (12 + zlen ck) + (12 + (4 + zlen data)) + 12).
  { unfold pre. rewrite !zlen_app. unfold descChunk, audioChunk. rewrite !cafBytes_len by reflexivity. change (zlen (cafBytes [])) with 0. unfold be8, beU. rewrite !zlen_app, !sampleBytes_zlen.
    change (zlen T_caff) with 4. change (zlen [0; 1; 0; 0]) with 4. change (zlen T_alac) with 4. change (zlen T_pakt) with 4. lia. }
  clearbody b pre. unfold alacChunks in H. unfold cafRead. rewrite st_seek, st_tell, st_length. cbn [fbytes fpos]. unfold flength. cbn [fbytes].
  destruct fuel as [|[|[|[|fuel]]]]; try lia.
  set (dc := snd (descChunk (bits64 rate) T_alac (alacFlag depth) 0 4096 channels depth)) in *. change (descChunk (bits64 rate) T_alac (alacFlag depth) 0 4096 channels depth) with (T_desc, dc) in H. rewrite cafBytes_cons in H.
  assert (Ldc : zlen dc = 32) by (unfold dc, descChunk, be8, beU; cbn [snd]; rewrite !zlen_app, !sampleBytes_zlen; reflexivity).
  assert (H1 : zskipn (8 + 12) b = dc ++ cafBytes [(T_kuki, ck); audioChunk 0 data; (T_pakt, paktBody pt)]).
  { pose proof H as H'. apply skip_field in H'; [|lia]. change (zlen T_desc) with 4 in H'. unfold be8 in H'. apply skip_sample in H'; [|lia]. exact H'. }
  assert (CC : cafCode host channels 4096 T_alac (alacFlag depth) depth TwosComp depth host CALAC 4096 0) by (destruct Hd as [-> | [-> | [-> | ->]]]; constructor).
  assert (Hfl : 0 <= alacFlag depth < 2 ^ 32) by (change (2 ^ 32) with 4294967296; destruct Hd as [-> | [-> | [-> | ->]]]; cbn; lia).
  assert (Hde : 0 <= depth < 2 ^ 32) by (change (2 ^ 32) with 4294967296; destruct Hd as [-> | [-> | [-> | ->]]]; lia).
  assert (Hfp : 0 <= 4096 < 2 ^ 32) by (change (2 ^ 32) with 4294967296; lia).
  assert (Hc24 : 0 < channels < 2 ^ 24) by (change (2 ^ 24) with 16777216; lia).
  destruct (desc_code host cafSt0 (bits64 rate) T_alac (alacFlag depth) 0 4096 channels depth TwosComp depth host CALAC 4096 0 b (8 + 12) _ CC Rb Hfl Hfp Hc24 Hde ltac:(lia) H1 (zlen dc)) as (f1 & D1 & D2).
  rewrite Er in D1. destruct (caf_one host (S (S (S fuel))) b 8 cafSt0 T_desc dc _ _ f1 H ltac:(lia) eq_refl Hl D1 D2) as [-> H2]. clear D1 D2 H H1 CC f1.
  rewrite Ldc in *. change (8 + 12 + 32) with 52 in *. set (fm := mkFmt rate TwosComp depth channels host CALAC 4096 0) in *.
  rewrite cafBytes_cons in H2.
  assert (H3 : zskipn (52 + 12) b = ck ++ cafBytes [audioChunk 0 data; (T_pakt, paktBody pt)]).
  { pose proof H2 as H'. apply skip_field in H'; [|lia]. change (zlen T_kuki) with 4 in H'. unfold be8 in H'. apply skip_sample in H'; [|lia]. exact H'. }
  assert (D1 : cafChunk host (cafSetFmt cafSt0 fm) T_kuki (zlen ck) (mkFile b (52 + 12)) = Ok (Some (CafSt (Some fm) 0 0 0 None (Some ck), mkFile b (52 + 12 + zlen ck)))).
  { unfold cafChunk. repeat match goal with |- context [teq ?a ?b] => let v := eval vm_compute in (teq a b) in change (teq a b) with v end. cbv iota. unfold cafParseCookie. replace (zlen ck <? 0) with false by lia.
    unfold hbind, hread, fread. cbn [fbytes fpos]. rewrite H3, zfirstn_exact. cbn [rbind]. rewrite Z.eqb_refl. reflexivity. }
  destruct (caf_one host (S (S fuel)) b 52 _ T_kuki ck _ _ _ H2 ltac:(lia) eq_refl Hl D1 eq_refl) as [-> H4]. clear D1 H2 H3.
  change (audioChunk 0 data) with (T_data, snd (audioChunk 0 data)) in H4. rewrite cafBytes_cons in H4.
  assert (H5 : zskipn (52 + 12 + zlen ck + 12) b = snd (audioChunk 0 data) ++ cafBytes [(T_pakt, paktBody pt)]).
  { pose proof H4 as H'. apply skip_field in H'; [|lia]. change (zlen T_data) with 4 in H'. unfold be8 in H'. apply skip_sample in H'; [|lia]. change (Z.of_nat 8) with 8 in H'. replace (52 + 12 + zlen ck + 12) with (52 + 12 + zlen ck + 4 + 8) by lia. exact H'. }
  destruct (audio_handled host (CafSt (Some fm) 0 0 0 None (Some ck)) fm 0 data b (52 + 12 + zlen ck + 12) _ eq_refl ltac:(lia) H5 Hl) as (f2 & D1 & D2). cbn [cs_total cs_pt cs_cookie] in D1.
  destruct (caf_one host (S fuel) b (52 + 12 + zlen ck) _ T_data (snd (audioChunk 0 data)) _ _ f2 H4 ltac:(lia) eq_refl Hl D1 D2) as [-> H6]. clear D1 D2 H4 H5 f2.
  assert (La : zlen (snd (audioChunk 0 data)) = 4 + zlen data) by (unfold audioChunk, beU; cbn [snd]; rewrite zlen_app, sampleBytes_zlen; reflexivity). rewrite La in *.
  rewrite cafBytes_cons in H6. change (cafBytes []) with (@nil Z) in H6.
  set (p := 52 + 12 + zlen ck + 12 + (4 + zlen data)) in *. assert (Hp : p + 12 = zlen pre) by (unfold p; lia).
  pose proof (C39_packet_table_roundtrip B pt pre [] P1 P2 P3 P4 P5 P6) as PT. cbv zeta in PT. rewrite <- Eb in PT.
  assert (Ec : computeTotal 0 (zlen data) fm = 0) by reflexivity. rewrite Ec.
  assert (D1 : cafChunk host (CafSt (Some fm) (52 + 12 + zlen ck + 12 + 4) (zlen data) 0 None (Some ck)) T_pakt (zlen (paktBody pt)) (mkFile b (p + 12)) =
     Ok (Some (CafSt (Some fm) (52 + 12 + zlen ck + 12 + 4) (zlen data) (pt_valid pt) (Some pt) (Some ck), mkFile b (zlen pre + zlen (paktBody pt))))).
  { unfold cafChunk. repeat match goal with |- context [teq ?a ?b] => let v := eval vm_compute in (teq a b) in change (teq a b) with v end. cbv iota. unfold cafParsePakt. rewrite Hp.
    unfold hbind. rewrite PT. reflexivity. }
  destruct (caf_one host fuel b p _ T_pakt (paktBody pt) _ _ _ H6 ltac:(lia) eq_refl Hl D1 eq_refl) as [-> H7].
  assert (Lb : zlen b = p + 12 + zlen (paktBody pt)) by (rewrite Eb, !zlen_app, <- Hp; change (zlen (@nil Z)) with 0; lia).
  assert (Ef : 52 + 12 + zlen ck + 12 + 4 = alacFirst channels) by (unfold alacFirst; rewrite Lk; lia). rewrite Ef.
  destruct fuel as [|fuel]; cbn [cafLoop]; replace (p + 12 + zlen (paktBody pt) <? zlen b) with false by lia; cbn [negb]; cbv iota; eexists; reflexivity.
Qed.

Lemma table_size sizes : zlen (paktTable sizes) <= 5 * zlen sizes.
Proof.
  unfold paktTable. induction sizes as [|x l IH]; [reflexivity|]. cbn [flat_map]. rewrite zlen_app, zlen_cons.
  assert (zlen (encodeBER (u32 x)) <= 5) by (unfold encodeBER; repeat (destruct (_ =? _)); cbn; lia). lia.
Qed.
Lemma packets_size fr depth channels xs ps M : Forall2 (decodesTo fr depth channels) xs ps -> bufferSize fr depth channels <= M ->
  zlen (concat ps) <= M * zlen ps /\ Forall (fun x => 1 <= x <= M) (map zlen ps).
Proof.
  intros F HM. induction F as [|x p xs ps (Bp & P0 & P3 & _) _ [IH1 IH2]]; [split; [cbn; lia|constructor]|].
  cbn [concat map]. rewrite zlen_app, zlen_cons. split; [lia|]. constructor; [lia|exact IH2].
Qed.

(** ** C37, C55 *)
(** Frames of samples that fit the format, written in any portions, the file closed: the file is a CAF file with the format set up, its configuration is the one
    the decoder needs, and reading and seeking show exactly the frames written (at 20 bits the four bits below them are dropped: [kept]).
    Missing: afSyncFile before closing (refuted below), two channels in the library's own buffer sizes (C66). *)
Theorem C37_caf_alac_roundtrip_partial :
  forall (B : Build) (V U : Type) host rate r32 depth channels (conv : V -> list Z) (back : list Z -> U) (hasConv : bool) junk cap buf (ws : list (list V)) inb outb,
    let fm := mkFmt rate TwosComp depth channels host CALAC 4096 0 in
    let ck := alacCookie 4096 depth channels r32 in
    let first := alacFirst channels in
    let frames := map conv (concat ws) in
    depthOk depth -> 1 <= channels <= 8 -> validD rate = true ->
    bytes_ok buf = true -> workable 4096 depth channels (zlen buf) -> 4096 <= cap ->
    Forall (alacFrame depth channels) frames -> zlen frames < 2 ^ 42 ->
    bytes_ok inb = true -> bufferSize 4096 depth channels <= zlen inb -> 4096 * channels <= zlen outb ->
    exists st, awrun (W := Wrapping) 4096 depth channels conv junk ck (aOpenWrite 4096 (alacInitFile fm) first cap buf) (map Write ws ++ [Sync]) = Ok st /\
    let bytes := fbytes (as_file st) in
    cafRecognize (mkFile bytes 0) = true /\
    exists dsize pt g,
    (forall fuel, (4 <= fuel)%nat -> exists f', cafRead host fuel (mkFile bytes 0) = Ok (Some (CafSt (Some fm) first dsize (zlen frames) (Some pt) (Some ck), f'))) /\
    alacInit ck = Ok (Some g) /\
    exists rst, aOpenRead 4096 pt bytes first (zlen frames) inb outb = Ok rst /\
    forall ops, (0 < zlen frames \/ Forall (fun o => match o with Seek k => k <= 0 | _ => True end) ops) ->
      arrun (W := Wrapping) g 4096 depth channels pt back hasConv rst ops = Ok (arun (mkA (map back (map (map (kept depth)) frames)) 0) ops).
Proof.
  intros B V U host rate r32 depth channels conv back hasConv junk cap buf ws inb outb fm ck first frames Hd Hc Hr Hb Hw Hcap Hfr Htot Hi Li Lo.
  assert (Hf : 1024 <= 4096 < 2 ^ 24) by (change (2 ^ 24) with 16777216; lia).
  assert (Hf' : 0 < 4096 < 2 ^ 24) by (change (2 ^ 24) with 16777216; lia).
  assert (H1st : 0 <= first) by (unfold first, alacFirst; destruct (2 <? channels); lia).
  pose proof (aOpen_inv 4096 depth channels Hf (alacInitFile fm) first cap buf Hb Hw Hcap) as I0.
  destruct (writes_ok (B := B) 4096 depth channels conv junk ck Hd Hf Hc (alacInitFile fm) first H1st ws _ _ _ I0 Hfr [Sync]) as (st1 & E1 & I1). cbn [app] in I1.
  destruct (aSync_ok (B := B) 4096 depth channels junk ck Hd Hf Hc (alacInitFile fm) first H1st st1 _ _ I1) as (st & pk & pl & ps & E2 & El & Fk & Hpl & F2 & FF & t & T1 & T2 & Efile).
  exists st. split; [rewrite E1; cbn [awrun awstep]; rewrite E2; reflexivity|].
  assert (Lk : zlen ck = if 2 <? channels then 48 else 24) by apply alacCookie_len.
  pose proof (alac_layout host rate depth channels ck (concat ps) t (mkPT (zlen frames) 0 0 (map zlen ps)) Hd Lk T1 T2) as EB. cbv zeta in EB. fold fm in EB. fold first in EB. fold frames in Efile. rewrite <- Efile in EB.
  cbv zeta. rewrite EB. set (pt := mkPT (zlen frames) 0 0 (map zlen ps)) in *. set (bytes := cafFile (alacChunks rate depth channels ck (concat ps) pt)).
  split; [reflexivity|].
  (* sizes *)
  assert (Lps : zlen ps = zlen pk + 1).
  { pose proof (Forall2_len _ _ _ F2) as L. rewrite map_length, app_length in L. cbn [length] in L. clear - L. unfold zlen. lia. }
  fold frames in El. assert (Lfr : zlen frames = 4096 * zlen pk + zlen pl) by (rewrite El, zlen_app, (zlen_chunk_frames _ 4096 Fk); lia).
  pose proof (zlen_nonneg pl) as Zpl. pose proof (zlen_nonneg pk) as Zpk. pose proof (zlen_nonneg frames) as Zfr.
  change (2 ^ 42) with 4398046511104 in Htot.
  assert (HB : bufferSize 4096 depth channels <= 200000) by (unfold bufferSize; destruct Hd as [-> | [-> | [-> | ->]]]; match goal with |- context [?a / 8] => let v := eval vm_compute in (a / 8) in change (a / 8) with v end; lia).
  destruct (packets_size 4096 depth channels _ ps 200000 F2 HB) as [SZ SZ2]. pose proof (table_size (map zlen ps)) as TS. rewrite zlen_map in TS.
  assert (Hlen : zlen bytes < 2 ^ 62).
  { unfold bytes, cafFile, alacChunks, descChunk, audioChunk. rewrite !zlen_app, !cafBytes_len by reflexivity. change (zlen (cafBytes [])) with 0. unfold paktBody, be8, beU. rewrite !zlen_app, !sampleBytes_zlen. cbn [pt pt_sizes].
    change (zlen T_caff) with 4. change (zlen [0; 1; 0; 0]) with 4. change (zlen T_alac) with 4. change (2 ^ 62) with 4611686018427387904.
    assert (zlen ck <= 48) by (rewrite Lk; destruct (2 <? channels); lia). lia. }
  exists (zlen (concat ps)), pt, (cookie 4096 depth). split; [|split; [exact (alacInit_ok depth channels r32 Hd Hc)|]].
  - intros fuel Hfu. apply alac_header; auto; unfold pt; cbn [pt_sizes pt_valid pt_priming pt_remainder].
    + eapply Forall_impl; [|exact SZ2]. intros x Hx. cbv beta in *. change (2 ^ 32) with 4294967296. lia.
    + intros E0. apply map_eq_nil in E0. rewrite E0 in Lps. change (zlen (@nil (list Z))) with 0 in Lps. lia.
    + change (2 ^ 63) with 9223372036854775808. lia.
    + rewrite zlen_map. change (2 ^ 63) with 9223372036854775808. lia.
  - assert (FC : Forall (Forall (fun x => zlen x = channels)) (pk ++ [pl])).
    { eapply Forall_impl; [|exact FF]. intros p Hp. eapply Forall_impl; [|exact Hp]. intros x Hx. apply Hx. }
    assert (Hcount : zlen ps < 2 ^ 31) by (change (2 ^ 31) with 2147483648; lia).
    assert (Hby : zskipn first bytes = concat ps ++ T_pakt ++ be8 (zlen (paktBody pt)) ++ paktBody pt).
    { unfold bytes, cafFile, alacChunks. change [?a; ?b'; ?c; ?d] with ([a; b'] ++ [c; d]). rewrite cafBytes_app. unfold audioChunk. rewrite (cafBytes_cons T_data), (cafBytes_cons T_pakt). change (cafBytes []) with (@nil Z). rewrite app_nil_r.
      set (pre := T_caff ++ [0; 1; 0; 0] ++ cafBytes [descChunk (bits64 rate) T_alac (alacFlag depth) 0 4096 channels depth; (T_kuki, ck)] ++ T_data ++ be8 (zlen (beU 0 ++ concat ps)) ++ beU 0).
      assert (Lp : zlen pre = first).
      { unfold pre, descChunk. rewrite !zlen_app, !cafBytes_len by reflexivity. change (zlen (cafBytes [])) with 0. unfold be8, beU. rewrite !zlen_app, !sampleBytes_zlen, Lk.
        change (zlen T_caff) with 4. change (zlen [0; 1; 0; 0]) with 4. change (zlen T_alac) with 4. change (zlen T_data) with 4. unfold first, alacFirst. lia. }
      rewrite <- Lp. replace (T_caff ++ _) with (pre ++ concat ps ++ T_pakt ++ be8 (zlen (paktBody pt)) ++ paktBody pt) by (unfold pre; rewrite <- !app_assoc; reflexivity). apply zskipn_exact. }
    assert (Hfit : first <= zlen bytes).
    { assert (L : zlen (zskipn first bytes) = zlen (concat ps ++ T_pakt ++ be8 (zlen (paktBody pt)) ++ paktBody pt)) by now rewrite Hby. rewrite zlen_skipn in L by lia. rewrite !zlen_app in L.
      change (zlen T_pakt) with 4 in L. pose proof (zlen_nonneg (concat ps)). pose proof (zlen_nonneg (be8 (zlen (paktBody pt)))). pose proof (zlen_nonneg (paktBody pt)). lia. }
    assert (EP : concat (pk ++ [pl]) = frames) by (rewrite concat_app, El; cbn [concat]; now rewrite app_nil_r).
    assert (ET : zlen (astream depth pk pl) = zlen frames) by (unfold astream; rewrite zlen_map, EP; reflexivity).
    destruct (aOpen_reads 4096 depth channels back Hf' Hc pk pl ps Fk Hpl F2 Hcount bytes first _ H1st Hby Hlen (zlen frames) 0 0 inb outb Hi Li Lo) as (rst & R1 & R2).
    rewrite ET in R1. exists rst. split; [exact R1|]. intros ops Hops.
    pose proof (arrun_ok (B := B) 4096 depth channels back hasConv Hf' Hc pk pl ps Fk Hpl FC F2 Hcount bytes first _ H1st Hby Hlen Hfit (zlen frames) 0 0 ops rst 0 R2) as RR.
    rewrite ET in RR. specialize (RR Hops). unfold astream in RR. rewrite EP in RR. exact RR.
Qed.
Print Assumptions C37_caf_alac_roundtrip_partial.

(** The hypotheses can be met, by the buffer the library allocates for one channel of 16 bits. *)
Definition r44100 := S754_finite false 6206523236469964 (-37).
Definition monoALAC (host : order) := mkFmt r44100 TwosComp 16 1 host CALAC 4096 0.
Example C37_alac_example : exists buf,
  depthOk 16 /\ validD r44100 = true /\ bytes_ok buf = true /\ zlen buf = bufferSize 4096 16 1 /\ workable 4096 16 1 (zlen buf) /\ Forall (alacFrame 16 1) [[5]; [-32768]; [32767]].
Proof.
  exists (zrepeat 0 (bufferSize 4096 16 1)). assert (L : zlen (zrepeat 0 (bufferSize 4096 16 1)) = bufferSize 4096 16 1) by (apply zlen_repeat; unfold bufferSize; lia).
  split; [unfold depthOk; lia|]. split; [reflexivity|]. split; [apply zrepeat_bytes|]. split; [exact L|]. rewrite L. split.
  - split; [|lia]. vm_compute. discriminate.
  - repeat constructor; unfold inRange, container; cbn; lia.
Qed.

(** ** C22, C53: synchronising an ALAC file before it is closed *)
(** What a program sees: [ops] on a new file (the last one closes it), then what opening the file gives: frames and packet table. *)
Definition writeALAC (B : Build) (host : order) (ops : list (wop (V := list Z))) : res (option (Z * option ptable)) :=
  do st <- awrun (W := Wrapping) 4096 16 1 (fun x => x) [0] (alacCookie 4096 16 1 44100)
             (aOpenWrite 4096 (alacInitFile (monoALAC host)) (alacFirst 1) 4096 (zrepeat 0 (bufferSize 4096 16 1))) ops;
  do r <- cafRead host 10 (mkFile (fbytes (as_file st)) 0);
  Ok (option_map (fun '(s, _) => (cs_total s, cs_pt s)) r).
(** Two frames written and the file closed: two frames.  The same with afSyncFile between the writes: the packet table is not found where the data chunk says the data
    ends, and the file has no frames.  afSyncFile and then afCloseFile: the assertion on the position fails, or, without assertions, again no frames. *)
Theorem C22_alac_sync_refuted :
  forall (B : Build) (host : order),
    writeALAC B host [Write [[5]]; Write [[6]]; Sync] = Ok (Some (2, Some (mkPT 2 0 0 [12]))) /\
    writeALAC B host [Write [[5]]; Sync; Write [[6]]; Sync] = Ok (Some (0, None)) /\
    writeALAC B host [Write [[5]]; Sync; Sync] = if asserting then Abort else Ok (Some (0, None)).
Proof.
  intros [|] [|]; (split; [|split]); vm_compute; reflexivity.
Qed.
Print Assumptions C22_alac_sync_refuted.
