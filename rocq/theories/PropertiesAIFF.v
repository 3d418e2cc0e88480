(** * C36, C42: AIFF and AIFF-C files, written and read back; Pascal strings *)
From Verif Require Import Prelude PreludeFacts ByteOrder FileIO Reader ReaderSpec PropertiesReader G711.
From Verif Require Import Writer WriterSpec WriterProofs WriterHistory Codecs CodecsProofs PropertiesWriter PropertiesRoundTrip HeaderIO FileRoundTrip Chunks Float Extended PropertiesExtended AIFF.

(** ** C42: Pascal strings *)
Lemma pstring_fields s : zlen s <= 255 -> pstring s = [zlen s] ++ s ++ (if zlen s mod 2 =? 0 then [0] else []).
Proof. intros H. unfold pstring. replace (255 <? zlen s) with false by lia. reflexivity. Qed.
Lemma pstring_len s : zlen s <= 255 -> zlen (pstring s) = zlen s + 1 + (if zlen s mod 2 =? 0 then 1 else 0).
Proof. intros H. rewrite pstring_fields by exact H. rewrite !zlen_app. change (zlen [zlen s]) with 1. destruct (zlen s mod 2 =? 0); [change (zlen [0]) with 1|change (zlen (@nil Z)) with 0]; lia. Qed.

Theorem C42_pstring_roundtrip :
  forall s pre rest, zlen s <= 255 ->
    zlen (pstring s) mod 2 = 0 /\ zlen s < zlen (pstring s) /\
    exists f', readPString (mkFile (pre ++ pstring s ++ rest) (zlen pre)) = Ok (Some (Some s, f')).
Proof.
  intros s pre rest Hs. pose proof (zlen_nonneg s). rewrite (pstring_len s Hs).
  split; [destruct (zlen s mod 2 =? 0) eqn:E; lia|]. split; [destruct (zlen s mod 2 =? 0); lia|].
  assert (H0 : zskipn (zlen pre) (pre ++ pstring s ++ rest) = [zlen s] ++ s ++ (if zlen s mod 2 =? 0 then [0] else []) ++ rest).
  { rewrite zskipn_exact, pstring_fields by exact Hs. rewrite <- !app_assoc. reflexivity. }
  set (b := pre ++ pstring s ++ rest) in *. pose proof (zlen_nonneg pre). unfold readPString.
  hfield H0 1; [reflexivity|]. hfield H0 (zlen s); [reflexivity|]. rewrite Z.eqb_refl. eexists. reflexivity.
Qed.
Print Assumptions C42_pstring_roundtrip.
Example C42_example : zlen [65; 66] <= 255 /\ pstring [65; 66] = [2; 65; 66; 0] /\ pstring [65] = [1; 65] /\ pstring [] = [0; 0].
Proof. repeat split; vm_compute; congruence. Qed.

(** A whole marker list: the same ids, positions and names come back, whatever the name lengths. *)
Definition validMark (m : amarker) : Prop := 0 <= am_id m < 2 ^ 16 /\ 0 <= am_pos m < 2 ^ 32 /\ zlen (am_name m) <= 255.
Lemma markEntry_len m : validMark m -> zlen (markEntry m) = 6 + zlen (pstring (am_name m)).
Proof. intros _. unfold markEntry, be2, be4. rewrite !zlen_app, !sampleBytes_zlen. lia. Qed.
Theorem C42_markers_roundtrip :
  forall ms b p rest, Forall validMark ms -> 0 <= p -> zskipn p b = concat (map markEntry ms) ++ rest ->
    zlen (concat (map markEntry ms)) mod 2 = 0 /\
    parseMarks (length ms) (mkFile b p) = Ok (Some (map (fun m => (zlen (am_name m), m)) ms, mkFile b (p + zlen (concat (map markEntry ms))))).
Proof.
  intros ms. induction ms as [|m ms IH]; intros b p rest Hv Hp H.
  - cbn. change (zlen (@nil Z)) with 0. rewrite Z.add_0_r. auto.
  - apply Forall_cons_iff in Hv. destruct Hv as [Hm Hv]. pose proof (markEntry_len m Hm) as Le. destruct Hm as (H1 & H2 & H3). pose proof (zlen_nonneg (am_name m)) as H0.
    change (2 ^ 16) with 65536 in *. change (2 ^ 32) with 4294967296 in *.
    cbn [map concat] in *. rewrite zlen_app. rewrite <- app_assoc in H. pose proof H as H'. apply skip_field in H'; [|lia].
    destruct (IH b (p + zlen (markEntry m)) rest Hv ltac:(pose proof (zlen_nonneg (markEntry m)); lia) H') as [E1 E2].
    rewrite Le, pstring_len in * by exact H3.
    split; [destruct (zlen (am_name m) mod 2 =? 0) eqn:E; lia|].
    unfold markEntry at 1 in H. unfold be2, be4 in H. rewrite <- !app_assoc in H. rewrite pstring_fields in H by exact H3. rewrite <- !app_assoc in H.
    cbn [length parseMarks]. do 2 hstep0 H. change (Z.of_nat 2) with 2 in *. change (Z.of_nat 4) with 4 in *. hfield H 1; [reflexivity|]. cbv iota zeta.
    hfield H (zlen (am_name m)); [reflexivity|].
    change (8 * 2) with 16. change (8 * 4) with 32. change (2 ^ 16) with 65536. change (2 ^ 32) with 4294967296. rewrite (Z.mod_small (am_id m)), (Z.mod_small (am_pos m)) by lia.
    assert (Em : AMarker (am_id m) (am_pos m) (am_name m) = m) by (destruct m; reflexivity). rewrite Em.
    change (Z.of_nat 2) with 2. change (Z.of_nat 4) with 4.
    destruct (zlen (am_name m) mod 2 =? 0).
    + rewrite st_skip. cbn [fbytes fpos]. unfold hbind.
      replace (p + 2 + 4 + 1 + zlen (am_name m) + 1) with (p + (6 + (zlen (am_name m) + 1 + 1))) by lia. rewrite E2. cbn [rbind]. unfold hret. do 4 f_equal. lia.
    + rewrite st_ret. unfold hbind.
      replace (p + 2 + 4 + 1 + zlen (am_name m)) with (p + (6 + (zlen (am_name m) + 1 + 0))) by lia. rewrite E2. cbn [rbind]. unfold hret. do 4 f_equal. lia.
Qed.
Print Assumptions C42_markers_roundtrip.
Example C42_markers_example : Forall validMark [AMarker 1 17 [97; 98]; AMarker 2 (2 ^ 32 - 1) []; AMarker 65535 0 [120]].
Proof. unfold validMark. repeat constructor; vm_compute; congruence. Qed.

(** Names of 256 bytes and more: writePString writes nothing at all, so the MARK chunk that results is not what a
    reader expects.  afInitMarkName cuts names to 255 bytes, so only a caller of writePString itself meets this. *)
Theorem C42_long_string_writes_nothing : forall s, 255 < zlen s -> pstring s = [].
Proof. intros s H. unfold pstring. replace (255 <? zlen s) with true by lia. reflexivity. Qed.
Print Assumptions C42_long_string_writes_nothing.

(** ** C36: the round trip *)
(** Formats an AIFF ([aifc = false]) or AIFF-C file can hold: any integer width, IEEE floats, G.711, IMA ADPCM. *)
Inductive aiffFmt (host : order) (rate : spec_float) : bool -> formatOf spec_float -> Prop :=
| AF_int aifc w ch : 1 <= w <= 32 -> 0 < ch < 2 ^ 16 -> aiffFmt host rate aifc (mkFmt rate TwosComp w ch BigEndian CNone 1 ((w + 7) / 8 * ch))
| AF_float ch : 0 < ch < 2 ^ 16 -> aiffFmt host rate true (mkFmt rate Float 32 ch BigEndian CNone 1 (4 * ch))
| AF_double ch : 0 < ch < 2 ^ 16 -> aiffFmt host rate true (mkFmt rate Double 64 ch BigEndian CNone 1 (8 * ch))
| AF_ulaw ch : 0 < ch < 2 ^ 16 -> aiffFmt host rate true (mkFmt rate TwosComp 16 ch host CUlaw 1 ch)
| AF_alaw ch : 0 < ch < 2 ^ 16 -> aiffFmt host rate true (mkFmt rate TwosComp 16 ch host CAlaw 1 ch)
| AF_ima ch : 0 < ch < 2 ^ 16 -> aiffFmt host rate true (mkFmt rate TwosComp 16 ch host CIMA 64 (34 * ch)).
(** The header counts packets of IMA ADPCM and frames of everything else; so this is the number of frames found again. *)
Definition counted (fm : formatOf spec_float) (total : Z) : Z := match f_comp fm with CIMA => total / 64 | _ => total end.
Definition foundTotal (fm : formatOf spec_float) (total : Z) : Z := match f_comp fm with CIMA => 64 * (total / 64) | _ => total end.

Definition rateOK (rate : spec_float) : Prop := zlen (extBytesOf rate) = 10 /\ fromExtended (extBytesOf rate) = Ok rate.
Lemma rateOK_finite s m e : validD (S754_finite s m e) = true -> rateOK (S754_finite s m e).
Proof. intros H. destruct (C41_extended_roundtrip s m e H) as (b & E & L & F). unfold rateOK, extBytesOf. rewrite E. auto. Qed.

Definition validInst (i : ainst) : Prop :=
  0 <= ai_base i < 256 /\ -128 <= ai_detune i < 128 /\ 0 <= ai_lonote i < 256 /\ 0 <= ai_hinote i < 256 /\ 0 <= ai_lovel i < 256 /\ 0 <= ai_hivel i < 256 /\
  -32768 <= ai_gain i < 32768 /\ 0 <= ai_smode i < 65536 /\ 0 <= ai_sbegin i < 65536 /\ 0 <= ai_send i < 65536 /\
  0 <= ai_rmode i < 65536 /\ 0 <= ai_rbegin i < 65536 /\ 0 <= ai_rend i < 65536.
(** What the setup functions and completeSetup let through; names are at most 255 bytes. *)
Definition validExtra (x : aextra) : Prop :=
  Forall validMark (ax_marks x) /\ zlen (ax_marks x) < 2 ^ 16 /\ validInst (ax_inst x) /\
  (forall d, ax_aes x = Some d -> zlen d = 24) /\ Forall (fun m => 201 <= fst m <= 206) (ax_misc x).

(** The chunks before the audio data: tag, size, contents. *)
Definition pad (c : list Z) : list Z := c ++ (if zlen c mod 2 =? 0 then [] else [0]).
Definition commContent (aifc : bool) (f : formatOf spec_float) (total : Z) : list Z :=
  be2 (f_chan f) ++ be4 (counted f total) ++ be2 (f_width f) ++ extBytesOf (f_rate f) ++ (if aifc then fst (commName f) ++ pstring (snd (commName f)) else []).
Definition instContent (i : ainst) : list Z :=
  sampleBytes BigEndian 1 (ai_base i) ++ sampleBytes BigEndian 1 (ai_detune i) ++ sampleBytes BigEndian 1 (ai_lonote i) ++ sampleBytes BigEndian 1 (ai_hinote i) ++
  sampleBytes BigEndian 1 (ai_lovel i) ++ sampleBytes BigEndian 1 (ai_hivel i) ++ be2 (ai_gain i) ++
  be2 (ai_smode i) ++ be2 (ai_sbegin i) ++ be2 (ai_send i) ++ be2 (ai_rmode i) ++ be2 (ai_rbegin i) ++ be2 (ai_rend i).
Definition markContent (ms : list amarker) : list Z := be2 (zlen ms) ++ concat (map markEntry ms).
Definition cFVER (aifc : bool) : list (list Z * Z * list Z) := if aifc then [(T_FVER, 4, be4 0xa2805140)] else [].
Definition cCOMM (aifc : bool) f total : list (list Z * Z * list Z) := [(T_COMM, if aifc then 22 + zlen (snd (commName f)) + 1 else 18, commContent aifc f total)].
Definition cMARK ms : list (list Z * Z * list Z) := match ms with [] => [] | _ => [(T_MARK, zlen (markContent ms), markContent ms)] end.
Definition cINST i : list (list Z * Z * list Z) := [(T_INST, 20, instContent i)].
Definition cAESD (a : option (list Z)) : list (list Z * Z * list Z) := match a with None => [] | Some d => [(T_AESD, 24, d)] end.
Definition cMISC (ms : list (Z * list Z)) : list (list Z * Z * list Z) := map (fun m => (miscTag (fst m), zlen (snd m), pad (snd m))) ms.
Definition aiffChunks (aifc : bool) (f : formatOf spec_float) (x : aextra) (total : Z) : list (list Z * Z * list Z) :=
  cFVER aifc ++ cCOMM aifc f total ++ cMARK (ax_marks x) ++ cINST (ax_inst x) ++ cAESD (ax_aes x) ++ cMISC (ax_misc x).

Lemma aiffBody_chunks host rate aifc fm x total dsize : aiffFmt host rate aifc fm -> 0 <= total < 2 ^ 63 -> zlen (ax_marks x) < 2 ^ 16 ->
  aiffBody aifc fm x total dsize = chunksBytes BigEndian (aiffChunks aifc fm x total) ++ ssndBytes dsize.
Proof.
  intros Hf Ht Hm. unfold aiffBody, aiffChunks. rewrite !chunksBytes_app, <- !app_assoc.
  assert (E1 : (if aifc then fverBytes else []) = chunksBytes BigEndian (cFVER aifc)) by (destruct aifc; unfold chunksBytes; cbn [cFVER map concat]; rewrite ?app_nil_r; reflexivity).
  assert (E2 : commBytes aifc fm total = chunksBytes BigEndian (cCOMM aifc fm total)).
  { unfold chunksBytes, cCOMM, commBytes, commContent. cbn [map concat]. rewrite app_nil_r. 
    assert (Eu : u64 total = total) by (unfold u64; apply uN_small; change (2 ^ 63) with 9223372036854775808 in Ht; change (2 ^ 64) with 18446744073709551616; lia).
    destruct aifc; inversion Hf; subst; unfold counted; cbn [f_comp f_sf f_fpp commName fst snd]; rewrite ?Eu, <- ?app_assoc; reflexivity. }
  assert (E3 : markBytes (ax_marks x) = chunksBytes BigEndian (cMARK (ax_marks x))).
  { unfold markBytes, cMARK. set (ms := ax_marks x) in *. assert (Em : zfirstn (u16 (zlen ms)) ms = ms).
    { unfold u16. rewrite uN_small by (pose proof (zlen_nonneg ms); lia). apply zfirstn_all. lia. }
    rewrite Em. clearbody ms. destruct ms; [reflexivity|]. unfold chunksBytes. cbn [map concat]. rewrite app_nil_r. reflexivity. }
  assert (E4 : instBytes (ax_inst x) = chunksBytes BigEndian (cINST (ax_inst x))).
  { unfold chunksBytes, cINST, instBytes, instContent. cbn [map concat]. rewrite app_nil_r. reflexivity. }
  assert (E5 : aesBytes (ax_aes x) = chunksBytes BigEndian (cAESD (ax_aes x))).
  { unfold chunksBytes, cAESD, aesBytes. destruct (ax_aes x); cbn [map concat]; rewrite ?app_nil_r; reflexivity. }
  assert (E6 : miscBytes (ax_misc x) = chunksBytes BigEndian (cMISC (ax_misc x))).
  { unfold chunksBytes, cMISC, miscBytes. rewrite map_map. f_equal. }
  now rewrite E1, E2, E3, E4, E5, E6.
Qed.

(** *** Reading each chunk *)
Lemma fver_handles {B : Build} aifc host s : handles (aiffChunk aifc host) s T_FVER 4 (be4 0xa2805140) s.
Proof.
  intros b p rest Hp H. unfold aiffChunk. change (teq T_FVER T_COMM) with false. change (teq T_FVER T_FVER) with true. cbv iota.
  unfold be4 in H. hstep H. eexists. split; reflexivity.
Qed.

Lemma readPString_field b p s rest : zlen s <= 255 -> 0 <= p -> zskipn p b = pstring s ++ rest -> exists f', readPString (mkFile b p) = Ok (Some (Some s, f')) /\ fbytes f' = b.
Proof.
  intros Hs Hp H. rewrite pstring_fields in H by exact Hs. rewrite <- !app_assoc in H. pose proof (zlen_nonneg s). unfold readPString.
  hfield H 1; [reflexivity|]. hfield H (zlen s); [reflexivity|]. rewrite Z.eqb_refl. eexists. split; reflexivity.
Qed.

Lemma commAIFC_ok host rate s fm total f : aiffFmt host rate true fm -> 0 <= total ->
  commAIFC host s (f_chan fm) (counted fm total) (f_width fm) rate (fst (commName fm)) (Some (snd (commName fm))) f = Ok (Some (withFmt s fm (foundTotal fm total), f)).
Proof.
  intros Hf Ht. unfold commAIFC.
  assert (B1 : forall w ch, 1 <= w <= 64 -> 0 < ch < 2 ^ 16 -> bppPCM w ch = Ok ((w + 7) / 8 * ch)).
  { intros w ch Hw Hc. change (2 ^ 16) with 65536 in *. apply bppPCM_ok; try (change (2 ^ 31) with 2147483648); nia. }
  unfold counted, foundTotal. inversion Hf; subst; cbn [f_comp f_sf f_chan f_width commName fst snd].
  - change (teq T_NONE T_NONE || teq T_NONE T_twos) with true. cbv iota. unfold commPCM, hbind, hlift. rewrite B1 by lia. cbn [rbind].
    unfold commDone. replace ((w <? 1) || (32 <? w)) with false by lia. reflexivity.
  - set (g := teq _ _). vm_compute in g. subst g. cbn [orb]. 
    repeat match goal with |- context [teq ?a ?b] => let v := eval vm_compute in (teq a b) in change (teq a b) with v end. cbn [orb].
    unfold commPCM, hbind, hlift. rewrite B1 by lia. cbn [rbind]. reflexivity.
  - repeat match goal with |- context [teq ?a ?b] => let v := eval vm_compute in (teq a b) in change (teq a b) with v end. cbn [orb].
    unfold commPCM, hbind, hlift. rewrite B1 by lia. cbn [rbind]. reflexivity.
  - repeat match goal with |- context [teq ?a ?b] => let v := eval vm_compute in (teq a b) in change (teq a b) with v end. cbn [orb]. reflexivity.
  - repeat match goal with |- context [teq ?a ?b] => let v := eval vm_compute in (teq a b) in change (teq a b) with v end. cbn [orb]. reflexivity.
  - repeat match goal with |- context [teq ?a ?b] => let v := eval vm_compute in (teq a b) in change (teq a b) with v end. cbn [orb]. rewrite (Z.mul_comm 64). reflexivity.
Qed.

Lemma comm_handles {B : Build} host rate aifc fm s total : aiffFmt host rate aifc fm -> rateOK rate -> 0 <= total -> counted fm total < 2 ^ 32 ->
  forall n, handles (aiffChunk aifc host) s T_COMM n (commContent aifc fm total) (withFmt s fm (foundTotal fm total)).
Proof.
  intros Hf [Lr Er] Ht0 Ht n b p rest Hp H. change (2 ^ 32) with 4294967296 in *. unfold aiffChunk. change (teq T_COMM T_COMM) with true. cbv iota.
  assert (R : f_rate fm = rate) by (inversion Hf; reflexivity).
  assert (Hc : 0 < f_chan fm < 65536) by (inversion Hf; cbn; lia).
  assert (Hw : 1 <= f_width fm <= 64) by (inversion Hf; cbn; lia).
  assert (Ln : zlen (snd (commName fm)) <= 255) by (inversion Hf; vm_compute; congruence).
  assert (Lt : zlen (fst (commName fm)) = 4) by (inversion Hf; vm_compute; congruence).
  unfold commContent in H. rewrite R in H. unfold be2, be4 in H. rewrite <- !app_assoc in H. unfold parseCOMM.
  hstep H. change (8 * Z.of_nat 2) with 16. change (2 ^ 16) with 65536. rewrite (Z.mod_small (f_chan fm)) by lia. replace (f_chan fm =? 0) with false by lia.
  hstep H. change (8 * Z.of_nat 4) with 32. change (2 ^ 32) with 4294967296. assert (0 <= counted fm total) by (unfold counted; destruct (f_comp fm); try exact Ht0; apply Z.div_pos; lia). rewrite (Z.mod_small (counted fm total)) by lia.
  hstep H. change (8 * Z.of_nat 2) with 16. change (2 ^ 16) with 65536. rewrite (Z.mod_small (f_width fm)) by lia.
  hfield H 10; [exact Lr|]. rewrite (st_lift _ rate) by exact Er.
  destruct aifc.
  - rewrite <- app_assoc in H. hfield H 4; [exact Lt|]. change (Z.of_nat 2) with 2 in *. change (Z.of_nat 4) with 4 in *.
    match type of H with zskipn ?q _ = _ => destruct (readPString_field b q _ _ Ln ltac:(lia) H) as (f' & E & Ef) end.
    unfold hbind at 1. rewrite E. cbn [rbind]. rewrite commAIFC_ok by (auto; lia). eexists. split; [reflexivity|exact Ef].
  - inversion Hf; subst; cbn [f_chan f_width] in *. unfold commPCM, hbind, hlift. rewrite bppPCM_ok by (try (change (2 ^ 31) with 2147483648); nia). cbn [rbind].
    unfold commDone. replace ((w <? 1) || (32 <? w)) with false by lia. eexists. split; reflexivity.
Qed.

Definition withMarks (s : aiffSt) ms := AiffSt (as_fmt s) (as_total s) (as_ssnd s) (as_first s) (as_dsize s) ms (as_inst s) (as_aes s) (as_misc s).
Definition withInst (s : aiffSt) i := AiffSt (as_fmt s) (as_total s) (as_ssnd s) (as_first s) (as_dsize s) (as_marks s) (Some i) (as_aes s) (as_misc s).
Definition withAes (s : aiffSt) a := AiffSt (as_fmt s) (as_total s) (as_ssnd s) (as_first s) (as_dsize s) (as_marks s) (as_inst s) a (as_misc s).
Definition withMisc (s : aiffSt) m := AiffSt (as_fmt s) (as_total s) (as_ssnd s) (as_first s) (as_dsize s) (as_marks s) (as_inst s) (as_aes s) m.
(** What reading finds: names with their lengths; empty miscellaneous chunks are skipped. *)
Definition marksFound (ms : list amarker) : list (Z * amarker) := map (fun m => (zlen (am_name m), m)) ms.
Definition miscFound (ms : list (Z * list Z)) : list (Z * Z * list Z) :=
  map (fun m => (fst m, zlen (snd m), snd m)) (filter (fun m => negb (zlen (snd m) =? 0)) ms).

Lemma mark_handles {B : Build} aifc host s ms n : Forall validMark ms -> zlen ms < 2 ^ 16 ->
  handles (aiffChunk aifc host) s T_MARK n (markContent ms) (withMarks s (marksFound ms)).
Proof.
  intros Hv Hl b p rest Hp H. pose proof (zlen_nonneg ms). change (2 ^ 16) with 65536 in *. unfold aiffChunk.
  repeat match goal with |- context [teq ?a ?b] => let v := eval vm_compute in (teq a b) in change (teq a b) with v end. cbv iota.
  unfold markContent, be2 in H. rewrite <- app_assoc in H. unfold parseMARK. hstep H. change (8 * Z.of_nat 2) with 16. change (2 ^ 16) with 65536. rewrite Z.mod_small by lia.
  match type of H with zskipn ?q _ = _ => destruct (C42_markers_roundtrip ms b q rest Hv ltac:(lia) H) as [_ E] end.
  unfold zlen at 1. rewrite Nat2Z.id. unfold hbind. rewrite E. cbn [rbind]. eexists. split; reflexivity.
Qed.

Lemma inst_handles {B : Build} aifc host s i n : validInst i -> handles (aiffChunk aifc host) s T_INST n (instContent i) (withInst s i).
Proof.
  intros (V1 & V2 & V3 & V4 & V5 & V6 & V7 & V8 & V9 & V10 & V11 & V12 & V13) b p rest Hp H. unfold aiffChunk.
  repeat match goal with |- context [teq ?a ?b] => let v := eval vm_compute in (teq a b) in change (teq a b) with v end. cbv iota.
  unfold instContent, be2 in H. rewrite <- !app_assoc in H. unfold parseINST. do 13 hstep H. clear H.
  change (8 * Z.of_nat 1) with 8. change (8 * Z.of_nat 2) with 16. change (2 ^ 8) with 256. change (2 ^ 16) with 65536.
  assert (E8 : s8 (ai_detune i mod 256) = ai_detune i).
  { unfold s8, sN. change (2 ^ 8) with 256. change (2 ^ (8 - 1)) with 128. lia. }
  assert (E16 : s16 (ai_gain i mod 65536) = ai_gain i).
  { unfold s16, sN. change (2 ^ 16) with 65536. change (2 ^ (16 - 1)) with 32768. lia. }
  rewrite E8, E16. clear E8 E16. rewrite !Z.mod_small by lia. clear. eexists. unfold hret, withInst. split; [destruct i; reflexivity|reflexivity].
Qed.

Lemma aesd_handles {B : Build} aifc host s d : zlen d = 24 -> handles (aiffChunk aifc host) s T_AESD 24 d (withAes s (Some d)).
Proof.
  intros L b p rest Hp H. unfold aiffChunk.
  repeat match goal with |- context [teq ?a ?b] => let v := eval vm_compute in (teq a b) in change (teq a b) with v end. cbv iota.
  unfold parseAESD. rewrite (st_assert _ _ _) by reflexivity. hfield H 24; [exact L|]. rewrite L. change (24 =? 24) with true. eexists. split; reflexivity.
Qed.

Lemma misc_handles {B : Build} aifc host s ty c : 201 <= ty <= 206 ->
  handles (aiffChunk aifc host) s (miscTag ty) (zlen c) (pad c) (withMisc s (as_misc s ++ miscFound [(ty, c)])).
Proof.
  intros Hty b p rest Hp H.
  assert (E : aiffChunk aifc host s (miscTag ty) (zlen c) = parseMisc s ty (zlen c)).
  { assert (ty = 201 \/ ty = 202 \/ ty = 203 \/ ty = 204 \/ ty = 205 \/ ty = 206) as D by lia. generalize (zlen c). intros z.
    destruct D as [->|[->|[->|[->|[->| ->]]]]]; reflexivity. }
  rewrite E. clear E. unfold parseMisc, miscFound. cbn [filter fst snd map]. pose proof (zlen_nonneg c).
  destruct (zlen c =? 0) eqn:E0; cbn [negb].
  - cbn [map]. rewrite app_nil_r. eexists. unfold hret, withMisc. split; [destruct s; reflexivity|reflexivity].
  - unfold pad in H. rewrite <- app_assoc in H. hfield H (zlen c); [reflexivity|]. eexists. split; reflexivity.
Qed.

Lemma miscTag_len ty : zlen (miscTag ty) = 4.
Proof. unfold miscTag. repeat match goal with |- context [if ?b then _ else _] => destruct b end; reflexivity. Qed.
Lemma pad_len c : zlen (pad c) = zlen c + zlen c mod 2.
Proof. unfold pad. rewrite zlen_app. destruct (zlen c mod 2 =? 0) eqn:E; [change (zlen (@nil Z)) with 0|change (zlen [0]) with 1]; lia. Qed.
Lemma miscs_handle {B : Build} aifc host ms : forall s, Forall (fun m => 201 <= fst m <= 206) ms ->
  handlesAll (aiffChunk aifc host) s (cMISC ms) (withMisc s (as_misc s ++ miscFound ms)).
Proof.
  induction ms as [|[ty c] ms IH]; intros s Hv.
  - cbn. rewrite app_nil_r. destruct s. constructor.
  - apply Forall_cons_iff in Hv. destruct Hv as [H1 H2]. cbn [cMISC map fst snd].
    econstructor; [apply miscTag_len|apply zlen_nonneg|apply pad_len|apply misc_handles; exact H1|].
    replace (as_misc s ++ miscFound ((ty, c) :: ms)) with (as_misc (withMisc s (as_misc s ++ miscFound [(ty, c)])) ++ miscFound ms).
    + exact (IH _ H2).
    + cbn [withMisc as_misc]. rewrite <- app_assoc. f_equal. unfold miscFound. cbn [filter snd fst map]. destruct (zlen c =? 0); reflexivity.
Qed.

Lemma aiff_chunks_handled {B : Build} host rate aifc fm x total : aiffFmt host rate aifc fm -> rateOK rate -> 0 <= total -> counted fm total < 2 ^ 32 -> validExtra x ->
  handlesAll (aiffChunk aifc host) aiffSt0 (aiffChunks aifc fm x total)
    (AiffSt (Some fm) (foundTotal fm total) false 0 0 (marksFound (ax_marks x)) (Some (ax_inst x)) (ax_aes x) (miscFound (ax_misc x))).
Proof.
  intros Hf Hr Ht0 Ht (V1 & V2 & V3 & V4 & V5). unfold aiffChunks.
  apply handlesAll_app with (s' := aiffSt0).
  { destruct aifc; [|constructor]. econstructor; [reflexivity|lia|reflexivity|apply fver_handles|constructor]. }
  apply handlesAll_app with (s' := withFmt aiffSt0 fm (foundTotal fm total)).
  { econstructor; [reflexivity|destruct aifc; [pose proof (zlen_nonneg (snd (commName fm)))|]; lia| |apply (comm_handles host rate); auto|constructor].
    unfold commContent, be2, be4. rewrite !zlen_app, !sampleBytes_zlen. destruct Hr as [Lr _]. assert (R : f_rate fm = rate) by (inversion Hf; reflexivity). rewrite R, Lr.
    destruct aifc; inversion Hf; subst; reflexivity. }
  apply handlesAll_app with (s' := withMarks (withFmt aiffSt0 fm (foundTotal fm total)) (marksFound (ax_marks x))).
  { destruct (ax_marks x) eqn:E; [constructor|]. rewrite <- E in *. replace (cMARK (ax_marks x)) with [(T_MARK, zlen (markContent (ax_marks x)), markContent (ax_marks x))] by (rewrite E; reflexivity).
    econstructor; [reflexivity|apply zlen_nonneg| |apply mark_handles; auto|constructor].
    unfold markContent, be2. rewrite !zlen_app, sampleBytes_zlen. change (Z.of_nat 2) with 2.
    destruct (C42_markers_roundtrip (ax_marks x) (concat (map markEntry (ax_marks x)) ++ []) 0 [] V1 ltac:(lia) ltac:(apply zskipn_0; lia)) as [Ev _]. lia. }
  apply handlesAll_app with (s' := withInst (withMarks (withFmt aiffSt0 fm (foundTotal fm total)) (marksFound (ax_marks x))) (ax_inst x)).
  { econstructor; [reflexivity|lia| |apply inst_handles; exact V3|constructor]. unfold instContent, be2. rewrite !zlen_app, !sampleBytes_zlen. reflexivity. }
  apply handlesAll_app with (s' := withAes (withInst (withMarks (withFmt aiffSt0 fm (foundTotal fm total)) (marksFound (ax_marks x))) (ax_inst x)) (ax_aes x)).
  { destruct (ax_aes x) as [d|] eqn:E; [|constructor]. econstructor; [reflexivity|lia|rewrite (V4 d eq_refl); reflexivity|apply aesd_handles; apply V4; reflexivity|constructor]. }
  exact (miscs_handle aifc host (ax_misc x) _ V5).
Qed.

(** Metadata may change between opening and closing, but not its layout: the number of markers and the lengths of their
    names, the presence of AES data, the number and the sizes of miscellaneous chunks are those of the setup. *)
Definition sameLayout (x y : aextra) : Prop :=
  map (fun m => zlen (am_name m)) (ax_marks x) = map (fun m => zlen (am_name m)) (ax_marks y) /\
  match ax_aes x, ax_aes y with None, None => True | Some d, Some e => zlen d = zlen e | _, _ => False end /\
  map (fun m => zlen (snd m)) (ax_misc x) = map (fun m => zlen (snd m)) (ax_misc y).

Lemma pstring_len_dep s t : zlen s = zlen t -> zlen (pstring s) = zlen (pstring t).
Proof. intros H. unfold pstring. rewrite H. destruct (255 <? zlen t); [reflexivity|]. rewrite !zlen_cons, !zlen_app, H. reflexivity. Qed.
Lemma marks_len ms : forall ns, map (fun m => zlen (am_name m)) ms = map (fun m => zlen (am_name m)) ns -> zlen (concat (map markEntry ms)) = zlen (concat (map markEntry ns)).
Proof.
  induction ms as [|m ms IH]; intros [|n ns] H; try discriminate H; [reflexivity|]. cbn [map] in H. injection H as H1 H2. cbn [map concat].
  rewrite !zlen_app, (IH ns H2). f_equal. unfold markEntry, be2, be4. rewrite !zlen_app, !sampleBytes_zlen, (pstring_len_dep _ _ H1). reflexivity.
Qed.
Lemma miscs_len ms : forall ns, map (fun m : Z * list Z => zlen (snd m)) ms = map (fun m : Z * list Z => zlen (snd m)) ns -> zlen (chunksBytes BigEndian (cMISC ms)) = zlen (chunksBytes BigEndian (cMISC ns)).
Proof.
  induction ms as [|m ms IH]; intros [|n ns] H; try discriminate H; [reflexivity|]. cbn [map] in H. injection H as H1 H2. 
  specialize (IH ns H2). unfold chunksBytes in *. cbn [cMISC map concat]. rewrite !zlen_app, !sampleBytes_zlen, !miscTag_len, !pad_len, H1. unfold cMISC in IH. rewrite IH. reflexivity.
Qed.
Lemma body_total aifc fm x total dsize : zlen (aiffBody aifc fm x total dsize) = zlen (aiffBody aifc fm x 0 dsize).
Proof.
  unfold aiffBody. rewrite !zlen_app. do 2 f_equal. unfold commBytes. destruct (commName fm) as [tag name]. unfold be2, be4. rewrite !zlen_app, !sampleBytes_zlen. reflexivity.
Qed.
Lemma body_len host rate aifc fm x y t1 t2 d1 d2 : aiffFmt host rate aifc fm -> validExtra x -> validExtra y -> sameLayout x y ->
  zlen (aiffBody aifc fm x t1 d1) = zlen (aiffBody aifc fm y t2 d2).
Proof.
  intros Hf (_ & V2 & _) (_ & W2 & _) (L1 & L2 & L3). rewrite (body_total _ _ _ t1), (body_total _ _ _ t2). rewrite !(aiffBody_chunks host rate) by (auto; change (2 ^ 63) with 9223372036854775808; lia). unfold aiffChunks. rewrite !chunksBytes_app, !zlen_app.
  rewrite (miscs_len _ _ L3).
  assert (E2 : zlen (chunksBytes BigEndian (cMARK (ax_marks x))) = zlen (chunksBytes BigEndian (cMARK (ax_marks y)))).
  { pose proof (marks_len _ _ L1) as M. destruct (ax_marks x) as [|m ms], (ax_marks y) as [|n ns]; try discriminate L1; [reflexivity|].
    unfold chunksBytes. cbn [cMARK map concat] in *. unfold markContent, be2. cbn [map concat]. rewrite !zlen_app, !sampleBytes_zlen in *. rewrite !zlen_nil. lia. }
  assert (E3 : zlen (chunksBytes BigEndian (cINST (ax_inst x))) = zlen (chunksBytes BigEndian (cINST (ax_inst y)))).
  { unfold chunksBytes, cINST, instContent, be2. cbn [map concat]. rewrite !zlen_app, !sampleBytes_zlen. reflexivity. }
  assert (E4 : zlen (chunksBytes BigEndian (cAESD (ax_aes x))) = zlen (chunksBytes BigEndian (cAESD (ax_aes y)))).
  { destruct (ax_aes x), (ax_aes y); try contradiction; [|reflexivity]. unfold chunksBytes, cAESD. cbn [map concat]. rewrite !zlen_app, L2. reflexivity. }
  assert (E5 : zlen (ssndBytes d1) = zlen (ssndBytes d2)) by (unfold ssndBytes, be4; rewrite !zlen_app, !sampleBytes_zlen; reflexivity).
  rewrite E2, E3, E4, E5. reflexivity.
Qed.

(** The layout of the front of the file. *)
Definition aiffFront (aifc : bool) (len limit : Z) (b : list Z) : Prop :=
  exists sz mid rest, zlen sz = 4 /\ zlen mid = len /\ b = T_FORM ++ sz ++ formTag aifc ++ mid ++ rest /\ zlen b <= limit.
Lemma formTag_len aifc : zlen (formTag aifc) = 4. Proof. destruct aifc; reflexivity. Qed.

Lemma aiffUpdate_front aifc fm x f t sz mid rest : zlen sz = 4 -> zlen mid = zlen (aiffBody aifc fm x (w_totalf t) (w_dsize t)) ->
  fbytes f = T_FORM ++ sz ++ formTag aifc ++ mid ++ rest ->
  fbytes (aiffUpdate aifc fm x f t) = T_FORM ++ be4 (flength f - 8) ++ formTag aifc ++ aiffBody aifc fm x (w_totalf t) (w_dsize t) ++ rest.
Proof.
  intros Ls Lm E. unfold aiffUpdate, fwrite, fseek. cbn [fbytes fpos]. unfold flength at 1. rewrite E.
  set (n := be4 _). assert (Ln : zlen n = 4) by (unfold n, be4; rewrite sampleBytes_zlen; reflexivity).
  change 4 with (zlen T_FORM). rewrite ow_mid by lia.
  replace (T_FORM ++ n ++ formTag aifc ++ mid ++ rest) with ((T_FORM ++ n ++ formTag aifc) ++ mid ++ rest) by (rewrite <- !app_assoc; reflexivity).
  replace 12 with (zlen (T_FORM ++ n ++ formTag aifc)) by (rewrite !zlen_app, Ln, formTag_len; reflexivity).
  rewrite ow_mid by exact Lm. rewrite <- !app_assoc. unfold n, flength. rewrite E. reflexivity.
Qed.

Lemma aiff_front host rate aifc fm x0 (xs : wtrack -> aextra) limit bpf : aiffFmt host rate aifc fm -> validExtra x0 ->
  (forall t, validExtra (xs t) /\ sameLayout x0 (xs t)) -> aiffFirst aifc fm x0 <= limit ->
  frontOK (aiffFront aifc (zlen (aiffBody aifc fm x0 0 0)) limit) (aiffInit aifc fm x0) (aiffFirst aifc fm x0) limit bpf (fun f t => aiffUpdate aifc fm (xs t) f t).
Proof.
  intros Hf V0 Vx Hl. split.
  - intros b p d Hp Hd (sz & mid & rest & Ls & Lm & E & Lb). unfold aiffFirst in Hp.
    exists sz, mid, (overwrite rest (p - (12 + zlen mid)) d). split; [exact Ls|]. split; [exact Lm|]. split.
    + rewrite E. replace (T_FORM ++ sz ++ formTag aifc ++ mid ++ rest) with ((T_FORM ++ sz ++ formTag aifc ++ mid) ++ rest) by (rewrite <- !app_assoc; reflexivity).
      assert (L : zlen (T_FORM ++ sz ++ formTag aifc ++ mid) = 12 + zlen mid) by (rewrite !zlen_app, Ls, formTag_len; change (zlen T_FORM) with 4; lia).
      rewrite ow_past by lia. rewrite L, <- !app_assoc. reflexivity.
    + destruct d as [|y d]; [exact Lb|]. pose proof (zlen_nonneg (aiffBody aifc fm x0 0 0)). rewrite ow_len by (try discriminate; lia). lia.
  - intros f t _ _ _ _ (sz & mid & rest & Ls & Lm & E & Lb). destruct (Vx t) as [Vt Lt].
    assert (Lm' : zlen mid = zlen (aiffBody aifc fm (xs t) (w_totalf t) (w_dsize t))) by (rewrite Lm; apply (body_len host rate); auto).
    exists (be4 (flength f - 8)), (aiffBody aifc fm (xs t) (w_totalf t) (w_dsize t)), rest.
    rewrite (aiffUpdate_front aifc fm (xs t) f t sz mid rest Ls Lm' E). unfold be4. rewrite sampleBytes_zlen. split; [reflexivity|]. split; [lia|]. split; [reflexivity|].
    rewrite E in Lb. rewrite !zlen_app in *. rewrite sampleBytes_zlen. change (Z.of_nat 4) with 4. lia.
  - exists (be4 0), (aiffBody aifc fm x0 0 0), []. split; [reflexivity|]. split; [reflexivity|]. split; [unfold aiffInit; now rewrite app_nil_r|].
    unfold aiffInit, aiffFirst in *. rewrite !zlen_app, formTag_len. change (zlen T_FORM) with 4. change (zlen (be4 0)) with 4. lia.
Qed.

Lemma aiff_keeps host rate aifc fm x0 (xs : wtrack -> aextra) : aiffFmt host rate aifc fm -> validExtra x0 ->
  (forall t, validExtra (xs t) /\ sameLayout x0 (xs t)) -> updKeeps (fun f t => aiffUpdate aifc fm (xs t) f t) (aiffFirst aifc fm x0).
Proof.
  intros Hf V0 Vx f t Ht. destruct (Vx t) as [Vt Lt]. pose proof (body_len host rate aifc fm x0 (xs t) 0 (w_totalf t) 0 (w_dsize t) Hf V0 Vt Lt) as EL.
  unfold aiffUpdate, fwrite, fseek. cbn [fbytes fpos]. unfold aiffFirst in *. pose proof (zlen_nonneg (aiffBody aifc fm x0 0 0)).
  set (a := 12 + zlen (aiffBody aifc fm x0 0 0)) in *.
  destruct (Z.lt_ge_cases (w_after t - a) 0) as [Hn|Hn]; [unfold region; rewrite !zfirstn_0 by lia; reflexivity|].
  rewrite ow_region_after' by (unfold a in *; lia). apply ow_region_after'; [lia| |exact Hn]. unfold be4. rewrite sampleBytes_zlen. unfold a. lia.
Qed.

(** [z] is the length of the file when the header was written. *)
Lemma aiff_read_header {B : Build} host rate aifc fm x total dsize z b rest fuel : aiffFmt host rate aifc fm -> rateOK rate -> validExtra x ->
  b = T_FORM ++ be4 (z - 8) ++ formTag aifc ++ aiffBody aifc fm x total dsize ++ rest ->
  z = 12 + zlen (aiffBody aifc fm x total dsize) + dsize -> z <= 2 ^ 32 - 24 -> 0 <= dsize -> 0 <= total < 2 ^ 63 -> counted fm total < 2 ^ 32 ->
  (6 + length (ax_misc x) <= fuel)%nat ->
  exists f', aiffRead aifc host fuel (mkFile b 0) = Ok (Some (AiffSt (Some fm) (foundTotal fm total) true (12 + zlen (aiffBody aifc fm x total dsize)) dsize
    (marksFound (ax_marks x)) (Some (ax_inst x)) (ax_aes x) (miscFound (ax_misc x)), f')).
Proof.
  intros Hf Hr Hx Eb Lb Hl Hd Ht Hct Hfu. pose proof (zlen_nonneg (aiffBody aifc fm x total dsize)) as Zb.
  rewrite (aiffBody_chunks host rate) in * by (auto; apply Hx). set (cs := aiffChunks aifc fm x total) in *.
  assert (Ls : zlen (ssndBytes dsize) = 16) by (unfold ssndBytes, be4; rewrite !zlen_app, !sampleBytes_zlen; reflexivity).
  rewrite zlen_app, Ls in *. pose proof (zlen_nonneg (chunksBytes BigEndian cs)) as Zc. change (2 ^ 32) with 4294967296 in *.
  assert (H : zskipn 0 b = T_FORM ++ be4 (z - 8) ++ formTag aifc ++ chunksBytes BigEndian cs ++ ssndBytes dsize ++ rest).
  { rewrite zskipn_0 by lia. rewrite Eb. rewrite <- !app_assoc. reflexivity. }
  clear Eb. unfold aiffRead. rewrite st_seek. cbn [fbytes]. hfield H 4; [reflexivity|]. change (0 + 4) with 4 in *. unfold be4 in H. hstep H. change (4 + Z.of_nat 4) with 8 in *.
  hfield H 4; [apply formTag_len|]. change (8 + 4) with (4 + 8) in *.
  assert (Ef : negb (teq T_FORM T_FORM) || negb (teq (formTag aifc) T_AIFF || teq (formTag aifc) T_AIFC) = false) by (destruct aifc; reflexivity). rewrite Ef. clear Ef.
  change (8 * Z.of_nat 4) with 32. change (2 ^ 32) with 4294967296. rewrite (Z.mod_small (z - 8)) by lia.
  assert (Lfu : exists k, fuel = (length cs + S k)%nat).
  { exists (fuel - length cs - 1)%nat. assert ((length cs <= 5 + length (ax_misc x))%nat); [|lia]. unfold cs, aiffChunks, cFVER, cCOMM, cINST, cAESD, cMISC.
    rewrite !app_length, map_length. clear. destruct aifc, (ax_marks x), (ax_aes x); cbn [length cMARK]; lia. }
  destruct Lfu as [k ->].
  pose proof (aiff_chunks_handled host rate aifc fm x total Hf Hr (proj1 Ht) Hct Hx) as HA. fold cs in HA.
  assert (W : forall v, 0 <= v < 2 ^ 32 -> u64 v = v) by (intros v Hv; unfold u64; apply uN_small; change (2 ^ 32) with 4294967296 in Hv; change (2 ^ 64) with 18446744073709551616; lia).
  destruct (chunkLoop_chunks BigEndian u64 (aiffChunk aifc host) (z - 8) b _ W cs _ _ (S k) 4 HA ltac:(lia) eq_refl ltac:(lia) ltac:(change (2 ^ 32) with 4294967296; lia) H) as (E1 & E2 & E3).
  rewrite E1. clear E1 HA H.
  assert (Es : ssndBytes dsize ++ rest = T_SSND ++ sampleBytes BigEndian 4 (dsize + 8) ++ (sampleBytes BigEndian 4 0 ++ sampleBytes BigEndian 4 0 ++ rest)) by (unfold ssndBytes, be4; rewrite <- !app_assoc; reflexivity).
  rewrite Es in E2. set (i := 4 + zlen (chunksBytes BigEndian cs)) in *. 
  assert (H : zskipn (i + 16) b = sampleBytes BigEndian 4 0 ++ sampleBytes BigEndian 4 0 ++ rest).
  { pose proof E2 as H. apply skip_field in H; [|lia]. change (zlen T_SSND) with 4 in H. apply skip_sample in H; [|lia]. change (Z.of_nat 4) with 4 in H.
    replace (i + 8 + 4 + 4) with (i + 16) in H by lia. exact H. }
  eapply chunkLoop_last with (b := b) (tag := T_SSND) (n := dsize + 8); try eassumption; try reflexivity; try lia; try (change (2 ^ 32) with 4294967296; lia).
  - unfold aiffChunk. repeat match goal with |- context [teq ?a ?b] => let v := eval vm_compute in (teq a b) in change (teq a b) with v end.
    change (tagMisc T_SSND) with (@None Z). cbv iota. cbn [as_ssnd]. unfold parseSSND.
    do 2 hstep H. rewrite st_tell. cbn [fpos]. change (0 mod 2 ^ (8 * Z.of_nat 4)) with 0. change (Z.of_nat 4) with 4.
    unfold hret. cbn [as_fmt as_total as_marks as_inst as_aes as_misc]. replace (i + 16 + 4 + 4 + 0) with (12 + (zlen (chunksBytes BigEndian cs) + 16)) by lia.
    replace (dsize + 8 - 8 - 0) with dsize by lia. unfold u64, s64. rewrite uN_small by (change (2 ^ 64) with 18446744073709551616; lia).
    rewrite sN_small by (try (change (2 ^ (64 - 1)) with 9223372036854775808); lia). reflexivity.
  - reflexivity.
Qed.

(** The file re-opens: format, frame count, data, and all the metadata that was there at the last update of the header;
    [fuel] bounds the number of chunks looked at. *)
Definition aiffReopens {F W} (B : Build) (aifc : bool) (host : order) (bytes : list Z) (r : codec F) (back : F -> W) (fm : formatOf spec_float) (x : aextra)
  (first size total : Z) (frames : list W) : Prop :=
  (forall fuel, (6 + length (ax_misc x) <= fuel)%nat -> exists f',
    aiffRead aifc host fuel (mkFile bytes 0) =
      Ok (Some (AiffSt (Some fm) total true first size (marksFound (ax_marks x)) (Some (ax_inst x)) (ax_aes x) (miscFound (ax_misc x)), f'))) /\
  readsAs B r back bytes first total frames.

Lemma aiff_conclude_front {F W} (B : Build) (host : order) rate aifc fm x0 (xs : wtrack -> aextra) (r : codec F) (back : F -> W) size total frames f0 (st_file : file) t (X : list Z) :
  aiffFmt host rate aifc fm -> rateOK rate -> validExtra x0 -> (forall t, validExtra (xs t) /\ sameLayout x0 (xs t)) ->
  let first := aiffFirst aifc fm x0 in
  0 <= size -> 0 <= total < 2 ^ 63 -> counted fm total < 2 ^ 32 -> first + size <= 2 ^ 32 - 24 ->
  st_file = aiffUpdate aifc fm (xs t) f0 t -> w_totalf t = total -> w_dsize t = size ->
  aiffFront aifc (zlen (aiffBody aifc fm x0 0 0)) (first + size) (fbytes f0) ->
  first + size <= zlen (fbytes st_file) ->
  zfirstn (first + size) X = zfirstn (first + size) (fbytes st_file) -> first + size <= zlen X ->
  readsAs B r back X first (foundTotal fm total) frames ->
  aiffReopens B aifc host X r back fm (xs t) first size (foundTotal fm total) frames.
Proof.
  intros Hf Hr V0 Vx first Hb Ht Hct Hs -> T1 T2 (sz & mid & rest & Ls & Lm & E & Lb) Fit EX LX RD. destruct (Vx t) as [Vt Lt].
  pose proof (body_len host rate aifc fm x0 (xs t) 0 (w_totalf t) 0 (w_dsize t) Hf V0 Vt Lt) as EL.
  pose proof (aiffUpdate_front aifc fm (xs t) f0 t sz mid rest Ls ltac:(lia) E) as Eb.
  assert (Lf : flength f0 = zlen (fbytes (aiffUpdate aifc fm (xs t) f0 t))).
  { rewrite Eb. unfold flength. rewrite E. rewrite !zlen_app. change (zlen (be4 _)) with 4. lia. }
  assert (Lz : zlen (fbytes (aiffUpdate aifc fm (xs t) f0 t)) = first + size) by (unfold flength in Lf; lia).
  split; [|exact RD]. intros fuel Hfu. rewrite T1, T2 in *. rewrite Lf in Eb. set (b := fbytes (aiffUpdate aifc fm (xs t) f0 t)) in *.
  assert (Ex : X = T_FORM ++ be4 (zlen b - 8) ++ formTag aifc ++ aiffBody aifc fm (xs t) total size ++ zskipn (12 + zlen (aiffBody aifc fm (xs t) total size)) X).
  { set (z := zlen b) in *. clearbody z. pose proof (same_front (T_FORM ++ be4 (z - 8) ++ formTag aifc ++ aiffBody aifc fm (xs t) total size) rest EX LX) as Q.
    rewrite !zlen_app, formTag_len in Q. change (zlen (be4 _)) with 4 in Q. change (zlen T_FORM) with 4 in Q.
    rewrite <- !app_assoc in Q. replace (4 + (4 + (4 + zlen (aiffBody aifc fm (xs t) total size)))) with (12 + zlen (aiffBody aifc fm (xs t) total size)) in Q by lia.
    apply Q; [exact Eb|]. unfold first, aiffFirst. lia. }
  replace first with (12 + zlen (aiffBody aifc fm (xs t) total size)) by (unfold first, aiffFirst; lia).
  apply (aiff_read_header host rate aifc fm (xs t) total size (zlen b) X (zskipn (12 + zlen (aiffBody aifc fm (xs t) total size)) X) fuel); auto; try lia.
  rewrite Lz. unfold first, aiffFirst. lia.
Qed.
Lemma aiff_conclude {F W} (B : Build) (host : order) rate aifc fm x0 (xs : wtrack -> aextra) (r : codec F) (back : F -> W) size total frames f0 (st_file : file) t :
  aiffFmt host rate aifc fm -> rateOK rate -> validExtra x0 -> (forall t, validExtra (xs t) /\ sameLayout x0 (xs t)) ->
  let first := aiffFirst aifc fm x0 in
  0 <= size -> 0 <= total < 2 ^ 63 -> counted fm total < 2 ^ 32 -> first + size <= 2 ^ 32 - 24 ->
  st_file = aiffUpdate aifc fm (xs t) f0 t -> w_totalf t = total -> w_dsize t = size ->
  aiffFront aifc (zlen (aiffBody aifc fm x0 0 0)) (first + size) (fbytes f0) ->
  first + size <= zlen (fbytes st_file) ->
  readsAs B r back (fbytes st_file) first (foundTotal fm total) frames ->
  aiffReopens B aifc host (fbytes st_file) r back fm (xs t) first size (foundTotal fm total) frames.
Proof. intros. eapply aiff_conclude_front; eauto. Qed.
Lemma aiff_updated_len host rate aifc fm x0 (xs : wtrack -> aextra) limit f0 t : aiffFmt host rate aifc fm -> validExtra x0 ->
  (forall t, validExtra (xs t) /\ sameLayout x0 (xs t)) -> aiffFront aifc (zlen (aiffBody aifc fm x0 0 0)) limit (fbytes f0) ->
  aiffFirst aifc fm x0 <= zlen (fbytes (aiffUpdate aifc fm (xs t) f0 t)).
Proof.
  intros Hf V0 Vx (sz & mid & rest & Ls & Lm & E & _). destruct (Vx t) as [Vt Lt].
  pose proof (body_len host rate aifc fm x0 (xs t) 0 (w_totalf t) 0 (w_dsize t) Hf V0 Vt Lt) as EL.
  rewrite (aiffUpdate_front aifc fm _ f0 _ sz mid rest Ls) by (auto; lia). rewrite !zlen_app, formTag_len. change (zlen (be4 _)) with 4. change (zlen T_FORM) with 4.
  unfold aiffFirst. pose proof (zlen_nonneg rest). lia.
Qed.

(** Bytes per sample of the uncompressed formats, and whether samples are signed integers. *)
Inductive aiffPCM (host : order) (rate : spec_float) (aifc : bool) (fm : formatOf spec_float) (sgn : bool) (n : nat) : Prop :=
| AP_int w ch : fm = mkFmt rate TwosComp w ch BigEndian CNone 1 (Z.of_nat n * ch) -> sgn = true -> 1 <= w <= 32 -> (w + 7) / 8 = Z.of_nat n -> 0 < ch < 2 ^ 16 -> aiffPCM host rate aifc fm sgn n
| AP_float ch : aifc = true -> fm = mkFmt rate Float 32 ch BigEndian CNone 1 (4 * ch) -> sgn = false -> n = 4%nat -> 0 < ch < 2 ^ 16 -> aiffPCM host rate aifc fm sgn n
| AP_double ch : aifc = true -> fm = mkFmt rate Double 64 ch BigEndian CNone 1 (8 * ch) -> sgn = false -> n = 8%nat -> 0 < ch < 2 ^ 16 -> aiffPCM host rate aifc fm sgn n.
Lemma aiffPCM_fmt host rate aifc fm sgn n : aiffPCM host rate aifc fm sgn n ->
  aiffFmt host rate aifc fm /\ (1 <= n)%nat /\ 0 < f_chan fm.
Proof.
  intros [w ch -> -> Hw Hn Hc|ch -> -> -> -> Hc|ch -> -> -> -> Hc]; cbn [f_chan].
  - rewrite <- Hn. split; [constructor; auto|]. split; lia.
  - split; [constructor; auto|]. split; lia.
  - split; [constructor; auto|]. split; lia.
Qed.

Theorem C36_aiff_pcm_roundtrip_partial :
  forall (B : Build) host aifc s m e fm sgn n, let rate := S754_finite s m e in validD rate = true -> aiffPCM host rate aifc fm sgn n ->
  forall x0 (xs : wtrack -> aextra), validExtra x0 -> (forall t, validExtra (xs t) /\ sameLayout x0 (xs t)) ->
  forall (V W : Type) (conv : V -> list Z) (back : list Z -> W) junk cap (ops : list wop),
    let ch := f_chan fm in let bpf := Z.of_nat n * ch in let first := aiffFirst aifc fm x0 in
    let total := zlen (written ops) in
    zlen junk = ch -> spaced false (ops ++ [Sync]) ->
    Forall (fun v => frameOf ch (fits sgn n) (conv v)) (written ops) ->
    first + bpf * total < 2 ^ 31 ->
    exists st, wrun (pcmW BigEndian n ch) conv junk true (fun f t => aiffUpdate aifc fm (xs t) f t)
        (openWrite (pcmW BigEndian n ch) (aiffInit aifc fm x0) first cap tt) (ops ++ [Sync]) = Ok st /\
      aiffReopens B aifc host (fbytes (ws_file st)) (pcmR BigEndian sgn n ch) back fm (xs (ws_track st)) first (bpf * total) total (map (fun v => back (conv v)) (written ops)).
Proof.
  intros B host aifc s m e fm sgn n rate Hr Hp x0 xs V0 Vx V W conv back junk cap ops ch bpf first total Hj Hsp Hok Hs.
  apply rateOK_finite in Hr. destruct (aiffPCM_fmt _ _ _ _ _ _ Hp) as (Hf & Hn & Hc). change (2 ^ 31) with 2147483648 in Hs. fold ch in Hc.
  assert (Pb : 0 < bpf) by (unfold bpf; apply Z.mul_pos_pos; lia). pose proof (zlen_nonneg (written ops) : 0 <= total) as Zt.
  assert (H0 : 0 <= first) by (unfold first, aiffFirst; pose proof (zlen_nonneg (aiffBody aifc fm x0 0 0)); lia).
  assert (Hm : total <= bpf * total) by nia.
  destruct (pcm_file (W := W) B BigEndian sgn n ch Hn Hc conv back junk (fun f t => aiffUpdate aifc fm (xs t) f t) (aiffInit aifc fm x0) first cap ops Hj H0
      (updKeeps_for _ _ _ _ (aiff_keeps host rate aifc fm x0 xs Hf V0 Vx)) _ (aiff_front host rate aifc fm x0 xs (first + bpf * total) bpf Hf V0 Vx ltac:(fold first; lia)) Hsp Hok Hs)
      as (st & f0 & R & Ef & HF & T0 & T1 & T2 & T3 & Fit & RD).
  exists st. split; [exact R|]. fold ch bpf in T2, T3, Fit. fold total in T1, T2, T3, Fit.
  assert (L0 : first <= zlen (fbytes (ws_file st))).
  { rewrite Ef. apply (aiff_updated_len host rate aifc fm x0 xs _ f0 (ws_track st) Hf V0 Vx HF). }
  specialize (RD (or_intror L0)).
  assert (Ec : counted fm total = total /\ foundTotal fm total = total) by (destruct Hp; subst fm; auto). destruct Ec as [Ec1 Ec2]. rewrite <- Ec2 at 2.
  apply (aiff_conclude B host rate aifc fm x0 xs _ back (bpf * total) total _ f0 (ws_file st) (ws_track st)); auto; try rewrite Ec1; try rewrite Ec2; auto; try (change (2 ^ 32) with 4294967296; change (2 ^ 63) with 9223372036854775808; fold first; lia).
  fold first. destruct (written ops) eqn:E; [unfold total; change (zlen (@nil V)) with 0; rewrite Z.mul_0_r; lia|]. apply Fit. congruence.
Qed.
Print Assumptions C36_aiff_pcm_roundtrip_partial.

Theorem C36_aifc_g711_roundtrip_partial :
  forall (B : Build) host s m e ch, let rate := S754_finite s m e in validD rate = true -> 0 < ch < 2 ^ 16 ->
  let fm c := mkFmt rate TwosComp 16 ch host c 1 ch in
  forall x0 (xs : wtrack -> aextra), validExtra x0 -> (forall t, validExtra (xs t) /\ sameLayout x0 (xs t)) ->
  forall (V W : Type) (conv : V -> list Z) (back : list Z -> W) junk cap (ops : list wop),
    let first c := aiffFirst true (fm c) x0 in let total := zlen (written ops) in
    zlen junk = ch -> spaced false (ops ++ [Sync]) -> Forall (fun v => zlen (conv v) = ch) (written ops) ->
    first CUlaw + ch * total <= 2 ^ 32 - 24 ->
    (exists st, wrun (ulawW ch) conv junk true (fun f t => aiffUpdate true (fm CUlaw) (xs t) f t)
        (openWrite (ulawW ch) (aiffInit true (fm CUlaw) x0) (first CUlaw) cap tt) (ops ++ [Sync]) = Ok st /\
      aiffReopens B true host (fbytes (ws_file st)) (ulawR ch) back (fm CUlaw) (xs (ws_track st)) (first CUlaw) (ch * total) total
        (map (fun v => back (map (fun x => ulaw2linear (linear2ulaw x)) (conv v))) (written ops))) /\
    (exists st, wrun (alawW ch) conv junk true (fun f t => aiffUpdate true (fm CAlaw) (xs t) f t)
        (openWrite (alawW ch) (aiffInit true (fm CAlaw) x0) (first CAlaw) cap tt) (ops ++ [Sync]) = Ok st /\
      aiffReopens B true host (fbytes (ws_file st)) (alawR ch) back (fm CAlaw) (xs (ws_track st)) (first CAlaw) (ch * total) total
        (map (fun v => back (map (fun x => alaw2linear (linear2alaw x)) (conv v))) (written ops))).
Proof.
  intros B host s m e ch rate Hr Hc fm x0 xs V0 Vx V W conv back junk cap ops first total Hj Hsp Hok Hs.
  apply rateOK_finite in Hr. assert (Hc0 : 0 < ch) by lia. pose proof (zlen_nonneg (written ops) : 0 <= total) as Zt.
  assert (FU : aiffFmt host rate true (fm CUlaw)) by (constructor; exact Hc).
  assert (FA : aiffFmt host rate true (fm CAlaw)) by (constructor; exact Hc).
  assert (E1 : first CAlaw = first CUlaw).
  { unfold first, aiffFirst, aiffBody. rewrite !zlen_app. do 2 f_equal. f_equal. unfold commBytes. cbn [commName f_comp fm]. rewrite !zlen_app. reflexivity. }
  change (2 ^ 32) with 4294967296 in *. assert (Hm : total <= ch * total) by nia.
  assert (H0 : 0 <= first CUlaw) by (unfold first, aiffFirst; pose proof (zlen_nonneg (aiffBody true (fm CUlaw) x0 0 0)); lia).
  split.
  - destruct (ulaw_file (W := W) B ch Hc0 conv back junk (fun f t => aiffUpdate true (fm CUlaw) (xs t) f t) (aiffInit true (fm CUlaw) x0) (first CUlaw) cap ops Hj H0
      (updKeeps_for _ _ _ _ (aiff_keeps host rate true (fm CUlaw) x0 xs FU V0 Vx)) _ (aiff_front host rate true (fm CUlaw) x0 xs (first CUlaw + ch * total) ch FU V0 Vx ltac:(fold (first CUlaw); nia)) Hsp Hok)
      as (st & f0 & R & Ef & HF & T0 & T1 & T2 & T3 & Fit & RD).
    exists st. split; [exact R|]. fold total in T1, T2, T3, Fit.
    assert (L0 : first CUlaw <= zlen (fbytes (ws_file st))) by (rewrite Ef; apply (aiff_updated_len host rate true (fm CUlaw) x0 xs _ f0 (ws_track st) FU V0 Vx HF)).
    specialize (RD (or_intror L0)).
    apply (aiff_conclude B host rate true (fm CUlaw) x0 xs _ back (ch * total) total _ f0 (ws_file st) (ws_track st)); auto; try (unfold counted; cbn [fm f_comp]; change (2 ^ 32) with 4294967296; change (2 ^ 63) with 9223372036854775808; fold (first CUlaw); lia).
    fold (first CUlaw). destruct (written ops) eqn:E; [unfold total; change (zlen (@nil V)) with 0; rewrite Z.mul_0_r; lia|]. apply Fit. congruence.
  - rewrite <- E1 in *. destruct (alaw_file (W := W) B ch Hc0 conv back junk (fun f t => aiffUpdate true (fm CAlaw) (xs t) f t) (aiffInit true (fm CAlaw) x0) (first CAlaw) cap ops Hj H0
      (updKeeps_for _ _ _ _ (aiff_keeps host rate true (fm CAlaw) x0 xs FA V0 Vx)) _ (aiff_front host rate true (fm CAlaw) x0 xs (first CAlaw + ch * total) ch FA V0 Vx ltac:(fold (first CAlaw); nia)) Hsp Hok)
      as (st & f0 & R & Ef & HF & T0 & T1 & T2 & T3 & Fit & RD).
    exists st. split; [exact R|]. fold total in T1, T2, T3, Fit.
    assert (L0 : first CAlaw <= zlen (fbytes (ws_file st))) by (rewrite Ef; apply (aiff_updated_len host rate true (fm CAlaw) x0 xs _ f0 (ws_track st) FA V0 Vx HF)).
    specialize (RD (or_intror L0)).
    apply (aiff_conclude B host rate true (fm CAlaw) x0 xs _ back (ch * total) total _ f0 (ws_file st) (ws_track st)); auto; try (unfold counted; cbn [fm f_comp]; change (2 ^ 32) with 4294967296; change (2 ^ 63) with 9223372036854775808; fold (first CAlaw); lia).
    fold (first CAlaw). destruct (written ops) eqn:E; [unfold total; change (zlen (@nil V)) with 0; rewrite Z.mul_0_r; lia|]. apply Fit. congruence.
Qed.
Print Assumptions C36_aifc_g711_roundtrip_partial.

(** A stereo AIFF-C file with two markers, an AES chunk and two miscellaneous chunks, one of odd size. *)
Definition exInst := AInst 60 (-10) 0 127 1 127 (-3) 1 1 2 0 0 0.
Definition exExtra (pos : Z) (text : list Z) := AExtra [AMarker 1 pos [97; 98]; AMarker 2 9 []] exInst (Some (zrepeat 7 24)) [(203, text); (204, [1; 2])].
Definition ex44100 := S754_finite false (Z.to_pos (44100 * 2 ^ 37)) (-37).
Example C36_example :
  validD ex44100 = true /\ aiffPCM LittleEndian ex44100 true (mkFmt ex44100 TwosComp 12 2 BigEndian CNone 1 4) true 2 /\
  validExtra (exExtra 0 [0; 0; 0]) /\ validExtra (exExtra 5 [88; 89; 90]) /\ sameLayout (exExtra 0 [0; 0; 0]) (exExtra 5 [88; 89; 90]) /\
  forall B : Build, exists st f', let fm := mkFmt ex44100 TwosComp 12 2 BigEndian CNone 1 4 in
    wrun (pcmW BigEndian 2 2) (fun x => x) [0; 0] true (fun f t => aiffUpdate true fm (exExtra 5 [88; 89; 90]) f t)
      (openWrite (pcmW BigEndian 2 2) (aiffInit true fm (exExtra 0 [0; 0; 0])) (aiffFirst true fm (exExtra 0 [0; 0; 0])) 1024 tt) [Write [[1; 2]; [3; -4]]; Sync; Write [[5; 6]]; Sync] = Ok st /\
    aiffRead true LittleEndian 8 (mkFile (fbytes (ws_file st)) 0) =
      Ok (Some (AiffSt (Some fm) 3 true 196 12 [(2, AMarker 1 5 [97; 98]); (0, AMarker 2 9 [])] (Some exInst) (Some (zrepeat 7 24)) [(203, 3, [88; 89; 90]); (204, 2, [1; 2])], f')).
Proof.
  split; [vm_compute; reflexivity|]. split; [apply (AP_int _ _ _ _ _ _ 12 2); try reflexivity; lia|].
  assert (V : forall p t, 0 <= p < 100 -> validExtra (exExtra p t)).
  { intros p t Hp. unfold validExtra, exExtra. cbn [ax_marks ax_inst ax_aes ax_misc]. split.
    { constructor; [|constructor; [|constructor]]; unfold validMark; cbn [am_id am_pos am_name]; change (2 ^ 16) with 65536; change (2 ^ 32) with 4294967296; repeat split; try lia; vm_compute; congruence. }
    split; [reflexivity|]. split; [unfold validInst, exInst; cbn; lia|]. split; [intros d [= <-]; reflexivity|]. repeat constructor; cbn [fst]; lia. }
  split; [apply V; lia|]. split; [apply V; lia|]. split; [repeat split|].
  intros B. do 2 eexists. cbv zeta. split; [vm_compute; reflexivity|]. vm_compute; reflexivity.
Qed.

(** IMA compression: the header counts packets, so the number of frames reads back rounded down to a multiple of 64. *)
Theorem C36_aifc_ima_frame_count_refuted :
  forall B : Build, exists f',
    let fm := mkFmt ex44100 TwosComp 16 1 LittleEndian CIMA 64 34 in let x := AExtra [] exInst None [] in
    aiffRead true LittleEndian 8 (mkFile (T_FORM ++ be4 (12 + zlen (aiffBody true fm x 100 68) + 68 - 8) ++ T_AIFC ++ aiffBody true fm x 100 68 ++ zrepeat 0 68) 0) =
      Ok (Some (AiffSt (Some fm) 64 true 118 68 [] (Some exInst) None [], f')).
Proof. intros B. eexists. cbv zeta. vm_compute. reflexivity. Qed.
Print Assumptions C36_aifc_ima_frame_count_refuted.

(** Miscellaneous chunks of size 0 are written, but reading skips them: their number is not preserved. *)
Theorem C36_empty_misc_refuted :
  forall ms, miscFound ((203, []) :: ms) = miscFound ms.
Proof. reflexivity. Qed.
Print Assumptions C36_empty_misc_refuted.

(** ** C57: opening *)
(** Without a COMM chunk the file opens, with a track format that was never initialised. *)
Theorem C57_aiff_without_comm_refuted :
  forall (B : Build) host, aiffOpen false host 8 (mkFile (T_FORM ++ be4 20 ++ T_AIFF ++ ssndBytes 0) 0) = UB.
Proof. intros B host. vm_compute. reflexivity. Qed.
Print Assumptions C57_aiff_without_comm_refuted.
(** A COMM chunk that stops early leaves the variables it is read into uninitialised. *)
Theorem C57_aiff_short_comm_refuted :
  forall (B : Build) host, aiffOpen false host 8 (mkFile (T_FORM ++ be4 30 ++ T_AIFF ++ T_COMM ++ be4 18 ++ [0]) 0) = UB.
Proof. intros B host. vm_compute. reflexivity. Qed.
Print Assumptions C57_aiff_short_comm_refuted.
(** An AES chunk of any other size than 24 makes a debug build abort. *)
Theorem C57_aiff_aesd_size_refuted :
  forall host, aiffOpen (B := Debug) false host 8 (mkFile (T_FORM ++ be4 30 ++ T_AIFF ++ T_AESD ++ be4 20 ++ zrepeat 0 20) 0) = Abort.
Proof. intros host. vm_compute. reflexivity. Qed.
Print Assumptions C57_aiff_aesd_size_refuted.
