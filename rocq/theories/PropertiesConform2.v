(** * C77, continued: the formats made of chunks, and the text header of NIST files *)
From Verif Require Import Prelude PreludeFacts ByteOrder FileIO Writer WriterSpec WriterProofs WriterHistory Codecs CodecsProofs PropertiesWriter PropertiesRoundTrip HeaderIO FileRoundTrip Float FloatBits PropertiesConform.
From Verif Require Chunks IFF PropertiesIFF AIFF PropertiesAIFF Extended PropertiesExtended WAVE PropertiesWAVE NIST PropertiesNIST.
From Coq Require String Ascii.
Import String.StringSyntax.
Local Arguments letters _%string_scope.

(** ** Specification: chunks *)
(** An identifier, the length of the contents, the contents, and a zero byte when the length is odd. *)
Definition chunkWith (num : Z -> list Z) (id content : list Z) : list Z := id ++ num (zlen content) ++ content ++ (if Z.odd (zlen content) then [0] else []).
Definition chunkB := chunkWith b32.
Definition chunkL := chunkWith l32.
(** A string after its length; in a sequence, with a byte more when the two are odd in number. *)
Definition pascal (s : list Z) : list Z := zlen s :: s.
Definition pascalEven (s : list Z) : list Z := pascal s ++ (if Z.odd (zlen s) then [] else [0]).

Lemma odd_mod n : (n mod 2 =? 0) = negb (Z.odd n).
Proof. rewrite Zmod_odd. destruct (Z.odd n); reflexivity. Qed.
Lemma odd_mod1 n : (n mod 2 =? 1) = Z.odd n.
Proof. rewrite Zmod_odd. destruct (Z.odd n); reflexivity. Qed.
Lemma chunk_big tag content : Chunks.chunk BigEndian tag content = chunkB tag content.
Proof. unfold Chunks.chunk, chunkB, chunkWith. rewrite sb4, odd_mod. destruct (Z.odd _); reflexivity. Qed.
Lemma chunk_little tag content : Chunks.chunk LittleEndian tag content = chunkL tag content.
Proof. unfold Chunks.chunk, chunkL, chunkWith. rewrite sl4, odd_mod. destruct (Z.odd _); reflexivity. Qed.
Lemma chunk_even (num : Z -> list Z) id content n : zlen content = n -> Z.odd n = false -> id ++ num n ++ content = chunkWith num id content.
Proof. intros <- H. unfold chunkWith. now rewrite H, app_nil_r. Qed.
Lemma b16_len v : zlen (b16 v) = 2. Proof. reflexivity. Qed.
Lemma b32_len v : zlen (b32 v) = 4. Proof. reflexivity. Qed.
Lemma l16_len v : zlen (l16 v) = 2. Proof. reflexivity. Qed.
Lemma l32_len v : zlen (l32 v) = 4. Proof. reflexivity. Qed.

(** ** IFF/8SVX files *)
Inductive iffId : Z -> list Z -> Prop :=   (* the kinds of miscellaneous data: copyright, author, name, annotation *)
| II_copy : iffId 201 (letters "(c) ") | II_auth : iffId 202 (letters "AUTH") | II_name : iffId 203 (letters "NAME") | II_anno : iffId 204 (letters "ANNO").
Fixpoint miscChunks (idOf : Z -> list Z -> Prop) (ch : list Z -> list Z -> list Z) (ms : list (Z * list Z)) (b : list Z) : Prop :=
  match ms with
  | [] => b = []
  | m :: ms => exists id rest, idOf (fst m) id /\ miscChunks idOf ch ms rest /\ b = ch id (snd m) ++ rest
  end.
(** One-shot samples, no repeated part, no length of a cycle, rate, number of octaves (written as none), no compression, volume 1.0. *)
Definition iffLayout (rate : Z) (ms : list (Z * list Z)) (total : Z) (audio bytes : list Z) : Prop :=
  exists misc, miscChunks iffId chunkB ms misc /\ zlen audio = total /\
    bytes = letters "FORM" ++ b32 (zlen bytes - 8) ++ letters "8SVX" ++
      chunkB (letters "VHDR") (b32 total ++ b32 0 ++ b32 0 ++ b16 rate ++ [0; 0] ++ b32 (2 ^ 16)) ++ misc ++ chunkB (letters "BODY") audio.

Lemma iff_misc ms : PropertiesIFF.iffTypes ms -> miscChunks iffId chunkB ms (IFF.iffMiscBytes ms).
Proof.
  induction 1 as [|m ms Hm _ IH]; [reflexivity|]. cbn [miscChunks]. exists (IFF.iffMiscTag (fst m)), (IFF.iffMiscBytes ms). split; [|split; [exact IH|]].
  - assert (T : fst m = 201 \/ fst m = 202 \/ fst m = 203 \/ fst m = 204) by lia. destruct T as [-> |[-> |[-> | ->]]]; constructor.
  - unfold IFF.iffMiscBytes. cbn [map concat]. now rewrite chunk_big.
Qed.
Theorem C77_iff_layout :
  forall (B : Build) rate, let fm := mkFmt rate TwosComp 8 1 BigEndian CNone 1 1 in
  forall ms0 ms, PropertiesIFF.iffTypes ms -> PropertiesIFF.sameSizes ms0 ms ->
  forall E c okF okE, library E c okF okE -> codecOf c fm ->
  forall (V : Type) (conv : V -> list Z) junk cap e0 (ws : list (list V)),
    okF junk -> okE e0 -> room c cap -> Forall okF (map conv (concat ws)) -> zlen (concat ws) < 2 ^ 32 ->
    writesFile B c conv junk (IFF.iffUpdate rate ms) (IFF.iffInit rate ms0) (IFF.iffFirst rate ms0) cap e0 ws (iffLayout rate ms).
Proof.
  intros B rate fm ms0 ms Hm Hs E c okF okE HL HC V conv junk cap e0 ws Hj He Hro Hok Hsz.
  pose proof (zlen_nonneg (IFF.iffBody rate ms0 0)) as Z0. pose proof (zlen_nonneg (concat ws)) as Z1.
  apply (written_file B E c okF okE fm HL HC); auto; try (unfold IFF.iffFirst; lia).
  intros d t T1 T2 T3 T4 L. set (n := zlen (concat ws)) in *.
  assert (Ld : zlen d = n) by (rewrite L; unfold audioBytes, packets; cbn [fm f_fpp f_bpp]; rewrite Z.div_1_r; lia).
  assert (Lh : zlen (IFF.iffInit rate ms0) = IFF.iffFirst rate ms0) by (unfold IFF.iffInit, IFF.iffFirst; rewrite !zlen_app; change (zlen AIFF.T_FORM) with 4; change (zlen IFF.T_8SVX) with 4; change (zlen (AIFF.be4 0)) with 4; lia).
  set (f := mkFile _ _). assert (Ef : fbytes f = AIFF.T_FORM ++ AIFF.be4 0 ++ IFF.T_8SVX ++ IFF.iffBody rate ms0 0 ++ d).
  { unfold f. cbn [fbytes]. rewrite <- Lh at 1. rewrite ow_at_end. unfold IFF.iffInit. rewrite <- !app_assoc. reflexivity. }
  assert (EP : PropertiesIFF.padded n d = d ++ (if Z.odd n then [0] else [])).
  { unfold PropertiesIFF.padded. rewrite odd_mod1. destruct (Z.odd n); [|now rewrite app_nil_r]. rewrite <- Ld. apply ow_at_end. }
  pose proof (PropertiesIFF.iffUpdate_front rate ms f t (AIFF.be4 0) (IFF.iffBody rate ms0 0) d ltac:(reflexivity) (PropertiesIFF.iffBody_len rate ms0 ms 0 (w_totalf t) Hs) Ef ltac:(rewrite T2; lia)) as EU.
  rewrite T2, EP in EU. set (bytes := fbytes (IFF.iffUpdate rate ms f t)) in *. exists (IFF.iffMiscBytes ms). split; [now apply iff_misc|]. split; [exact Ld|].
  assert (EL : zlen bytes = 12 + zlen (IFF.iffBody rate ms0 0) + zlen (d ++ (if Z.odd n then [0] else []))).
  { rewrite EU, !zlen_app. rewrite (PropertiesIFF.iffBody_len rate ms0 ms 0 n Hs). change (zlen AIFF.T_FORM) with 4. change (zlen IFF.T_8SVX) with 4. unfold AIFF.be4. rewrite sampleBytes_zlen. lia. }
  rewrite <- EL in EU. rewrite EU at 1. unfold IFF.iffBody, IFF.vhdrBytes, AIFF.be4, AIFF.be2. rewrite !sb4, !sb2, !so1. rewrite <- !app_assoc.
  unfold chunkB, chunkWith. rewrite Ld. change (Z.odd (zlen _)) with false. cbv iota. change (2 ^ 16) with 65536. rewrite <- !app_assoc. reflexivity.
Qed.
Print Assumptions C77_iff_layout.

(** ** AIFF and AIFF-C files *)
(** The rate as an 80-bit number: sign and exponent, then a mantissa with its highest bit set; its value is the rate. *)
Definition extended (s : bool) (m : positive) (e : Z) (b : list Z) : Prop :=
  exists x mant, b = b16 ((if s then 32768 else 0) + x) ++ b64 mant /\ 2 ^ 63 <= mant < 2 ^ 64 /\ 0 < x < 32767 /\ 0 <= x - 16383 - 63 + 2000 /\ 0 <= e + 2000 /\
    mant * 2 ^ (x - 16383 - 63 + 2000) = Zpos m * 2 ^ (e + 2000).
(** How AIFF-C names the coding of the samples. *)
Inductive aifcCode {R} : formatOf R -> list Z -> list Z -> Prop :=
| AC_int r w ch o b : aifcCode (mkFmt r TwosComp w ch o CNone 1 b) (letters "NONE") (letters "not compressed")
| AC_float r ch o b : aifcCode (mkFmt r Float 32 ch o CNone 1 b) (letters "fl32") (letters "32-bit Floating Point")
| AC_double r ch o b : aifcCode (mkFmt r Double 64 ch o CNone 1 b) (letters "fl64") (letters "64-bit Floating Point")
| AC_ulaw r w ch o b : aifcCode (mkFmt r TwosComp w ch o CUlaw 1 b) (letters "ulaw") (letters "CCITT G.711 u-law")
| AC_alaw r w ch o b : aifcCode (mkFmt r TwosComp w ch o CAlaw 1 b) (letters "alaw") (letters "CCITT G.711 A-law")
| AC_ima r w ch o b : aifcCode (mkFmt r TwosComp w ch o CIMA 64 b) (letters "ima4") (letters "IMA 4:1 compression").
Inductive aiffId : Z -> list Z -> Prop :=
| AI_copy : aiffId 201 (letters "(c) ") | AI_auth : aiffId 202 (letters "AUTH") | AI_name : aiffId 203 (letters "NAME") | AI_anno : aiffId 204 (letters "ANNO")
| AI_appl : aiffId 205 (letters "APPL") | AI_midi : aiffId 206 (letters "MIDI").
Definition markRecord (m : AIFF.amarker) : list Z := b16 (AIFF.am_id m) ++ b32 (AIFF.am_pos m) ++ pascalEven (AIFF.am_name m).
Definition instRecord (i : AIFF.ainst) : list Z :=
  [byteAt 0 (AIFF.ai_base i); byteAt 0 (AIFF.ai_detune i); byteAt 0 (AIFF.ai_lonote i); byteAt 0 (AIFF.ai_hinote i); byteAt 0 (AIFF.ai_lovel i); byteAt 0 (AIFF.ai_hivel i)] ++
  b16 (AIFF.ai_gain i) ++ (b16 (AIFF.ai_smode i) ++ b16 (AIFF.ai_sbegin i) ++ b16 (AIFF.ai_send i)) ++ (b16 (AIFF.ai_rmode i) ++ b16 (AIFF.ai_rbegin i) ++ b16 (AIFF.ai_rend i)).
(** The last chunk is the one with the audio: offset and block size 0, then the samples.  Nothing follows it. *)
Definition aiffLayout (aifc : bool) s m e (fm : formatOf spec_float) (x : AIFF.aextra) (total : Z) (audio bytes : list Z) : Prop :=
  exists rate coding misc, extended s m e rate /\ miscChunks aiffId chunkB (AIFF.ax_misc x) misc /\ zlen audio = audioBytes fm total /\
    (if aifc then exists id name, aifcCode fm id name /\ coding = id ++ pascal name else coding = []) /\
    bytes = letters "FORM" ++ b32 (zlen bytes - 8) ++ letters (if aifc then "AIFC" else "AIFF") ++
      (if aifc then chunkB (letters "FVER") (b32 2726318400) else []) ++
      chunkB (letters "COMM") (b16 (f_chan fm) ++ b32 (packets (f_fpp fm) total) ++ b16 (f_width fm) ++ rate ++ coding) ++
      (match AIFF.ax_marks x with [] => [] | ms => chunkB (letters "MARK") (b16 (zlen ms) ++ concat (map markRecord ms)) end) ++
      chunkB (letters "INST") (instRecord (AIFF.ax_inst x)) ++
      (match AIFF.ax_aes x with Some d => chunkB (letters "AESD") d | None => [] end) ++
      misc ++
      letters "SSND" ++ b32 (zlen audio + 8) ++ b32 0 ++ b32 0 ++ audio.

Lemma aiff_misc ms : Forall (fun m => 201 <= fst m <= 206) ms -> miscChunks aiffId chunkB ms (AIFF.miscBytes ms).
Proof.
  induction 1 as [|m ms Hm _ IH]; [reflexivity|]. cbn [miscChunks]. exists (AIFF.miscTag (fst m)), (AIFF.miscBytes ms). split; [|split; [exact IH|]].
  - assert (T : fst m = 201 \/ fst m = 202 \/ fst m = 203 \/ fst m = 204 \/ fst m = 205 \/ fst m = 206) by lia. destruct T as [-> |[-> |[-> |[-> |[-> | ->]]]]]; constructor.
  - unfold AIFF.miscBytes. cbn [map concat]. now rewrite chunk_big.
Qed.
Lemma pascal_even s : zlen s <= 255 -> AIFF.pstring s = pascalEven s.
Proof.
  intros H. unfold AIFF.pstring, pascalEven, pascal. replace (255 <? zlen s) with false by lia. rewrite odd_mod. destruct (Z.odd (zlen s)); reflexivity.
Qed.
Lemma marks_chunk ms : Forall PropertiesAIFF.validMark ms -> zlen ms < 2 ^ 16 ->
  AIFF.markBytes ms = match ms with [] => [] | ms => chunkB (letters "MARK") (b16 (zlen ms) ++ concat (map markRecord ms)) end.
Proof.
  intros Hv Hl. change (2 ^ 16) with 65536 in Hl. destruct (PropertiesAIFF.C42_markers_roundtrip ms (concat (map AIFF.markEntry ms)) 0 [] Hv ltac:(lia) ltac:(rewrite app_nil_r; reflexivity)) as [EV _].
  unfold AIFF.markBytes. destruct ms as [|m0 ms0]; [reflexivity|]. set (ms := m0 :: ms0) in *.
  assert (Em : zfirstn (u16 (zlen ms)) ms = ms) by (unfold u16; rewrite uN_small by (pose proof (zlen_nonneg ms); change (2 ^ 16) with 65536; lia); apply zfirstn_all; lia).
  rewrite Em. assert (ER : map AIFF.markEntry ms = map markRecord ms).
  { apply map_ext_in. intros m Hin. rewrite Forall_forall in Hv. destruct (Hv m Hin) as (_ & _ & Hn). unfold AIFF.markEntry, markRecord, AIFF.be2, AIFF.be4. rewrite sb2, sb4, pascal_even by lia. reflexivity. }
  rewrite ER in *. cbv zeta. unfold AIFF.be2, AIFF.be4. rewrite sb2, sb4. apply (chunk_even b32); [reflexivity|].
  rewrite zlen_app, b16_len. rewrite Zmod_odd in EV. rewrite Z.odd_add. destruct (Z.odd (zlen (concat _))); [discriminate|reflexivity].
Qed.

Theorem C77_aiff_layout_partial :
  forall (B : Build) host aifc s m e fm, let rate := S754_finite s m e in PropertiesAIFF.aiffFmt host rate aifc fm -> validD rate = true ->
  forall x0 x, PropertiesAIFF.validExtra x0 -> PropertiesAIFF.validExtra x -> PropertiesAIFF.sameLayout x0 x ->
  forall E c okF okE, library E c okF okE -> codecOf c fm ->
  forall (V : Type) (conv : V -> list Z) junk cap e0 (ws : list (list V)),
    okF junk -> okE e0 -> room c cap -> Forall okF (map conv (concat ws)) -> zlen (concat ws) < 2 ^ 63 -> zlen (concat ws) mod f_fpp fm = 0 ->
    writesFile B c conv junk (AIFF.aiffUpdate aifc fm x) (AIFF.aiffInit aifc fm x0) (AIFF.aiffFirst aifc fm x0) cap e0 ws (aiffLayout aifc s m e fm x).
Proof.
  intros B host aifc s m e fm rate Hf Hr x0 x V0 V1 SL E c okF okE HL HC V conv junk cap e0 ws Hj He Hro Hok Hsz Hdiv.
  pose proof (zlen_nonneg (AIFF.aiffBody aifc fm x0 0 0)) as Z0. pose proof (zlen_nonneg (concat ws)) as Z1.
  apply (written_file B E c okF okE fm HL HC); auto; try (unfold AIFF.aiffFirst; lia).
  intros d t T1 T2 T3 T4 L. set (n := zlen (concat ws)) in *.
  assert (Lh : zlen (AIFF.aiffInit aifc fm x0) = AIFF.aiffFirst aifc fm x0).
  { unfold AIFF.aiffInit, AIFF.aiffFirst. rewrite !zlen_app. unfold AIFF.be4. rewrite sampleBytes_zlen. destruct aifc; change (zlen (AIFF.formTag _)) with 4; change (zlen AIFF.T_FORM) with 4; lia. }
  set (f := mkFile _ _). assert (Ef : fbytes f = AIFF.T_FORM ++ AIFF.be4 0 ++ AIFF.formTag aifc ++ AIFF.aiffBody aifc fm x0 0 0 ++ d).
  { unfold f. cbn [fbytes]. rewrite <- Lh at 1. rewrite ow_at_end. unfold AIFF.aiffInit. rewrite <- !app_assoc. reflexivity. }
  pose proof (PropertiesAIFF.body_len host rate aifc fm x0 x 0 (w_totalf t) 0 (w_dsize t) Hf V0 V1 SL) as BL.
  pose proof (PropertiesAIFF.aiffUpdate_front aifc fm x f t (AIFF.be4 0) _ d ltac:(reflexivity) BL Ef) as EU.
  rewrite T2, T3 in EU, BL. set (bytes := fbytes (AIFF.aiffUpdate aifc fm x f t)) in *.
  assert (EL : zlen bytes = flength f).
  { rewrite EU. unfold flength. rewrite Ef, !zlen_app. unfold AIFF.be4. rewrite !sampleBytes_zlen. lia. }
  rewrite <- EL in EU. destruct V1 as (VM & VN & _ & VA & VX). destruct (PropertiesExtended.C41_extended_value s m e Hr) as (xx & mant & TE & X1 & X2 & X3 & X4 & X5).
  assert (EX : AIFF.extBytesOf (f_rate fm) = b16 ((if s then 32768 else 0) + xx) ++ b64 mant).
  { assert (R : f_rate fm = rate) by (inversion Hf; reflexivity). rewrite R. unfold AIFF.extBytesOf, rate. rewrite TE. unfold PropertiesExtended.extBytes. rewrite be_bytes2, be_bytes8. reflexivity. }
  assert (G : if aifc then aifcCode fm (fst (AIFF.commName fm)) (snd (AIFF.commName fm)) /\ zlen (snd (AIFF.commName fm)) <= 255 else True).
  { destruct aifc; [|exact I]. inversion Hf; subst; (split; [constructor|cbn; lia]). }
  set (coding := if aifc then fst (AIFF.commName fm) ++ pascal (snd (AIFF.commName fm)) else []).
  exists (AIFF.extBytesOf (f_rate fm)), coding, (AIFF.miscBytes (AIFF.ax_misc x)).
  split; [exists xx, mant; auto 10|]. split; [now apply aiff_misc|]. split; [exact L|]. split.
  { unfold coding. destruct aifc; [|reflexivity]. destruct G as [G _]. eauto. }
  assert (EC : AIFF.commBytes aifc fm n = chunkB (letters "COMM") (b16 (f_chan fm) ++ b32 (packets (f_fpp fm) n) ++ b16 (f_width fm) ++ AIFF.extBytesOf (f_rate fm) ++ coding)).
  { assert (EN : (match f_comp fm with CIMA => u64 n / f_fpp fm | _ => n end) = packets (f_fpp fm) n).
    { unfold packets. inversion Hf; subst; cbn [f_comp f_fpp] in *; try (rewrite Z.div_1_r; lia).
      assert (Eu : u64 n = n) by (unfold u64; apply uN_small; change (2 ^ 63) with 9223372036854775808 in Hsz; change (2 ^ 64) with 18446744073709551616; lia). rewrite Eu. lia. }
    assert (LX : zlen (AIFF.extBytesOf (f_rate fm)) = 10) by (rewrite EX; reflexivity).
    unfold AIFF.commBytes. assert (ET : length (fst (AIFF.commName fm)) = 4%nat \/ aifc = false) by (destruct aifc; [left|right; reflexivity]; inversion Hf; subst; reflexivity).
    destruct (AIFF.commName fm) as [tag name] eqn:En. cbn [fst snd] in *. rewrite EN. unfold AIFF.be2, AIFF.be4. rewrite !sb2, !sb4. unfold coding. destruct aifc.
    - destruct G as [_ Gl]. destruct ET as [ET|ET]; [|discriminate ET]. assert (LT : zlen tag = 4) by (unfold zlen; rewrite ET; reflexivity).
      rewrite pascal_even by exact Gl. unfold chunkB, chunkWith, pascalEven.
      set (w := b16 (f_chan fm) ++ b32 (packets (f_fpp fm) n) ++ b16 (f_width fm) ++ AIFF.extBytesOf (f_rate fm) ++ tag ++ pascal name).
      assert (LW : zlen w = 22 + zlen name + 1) by (unfold w, pascal; rewrite !zlen_app, !b16_len, b32_len, LX, LT, zlen_cons; lia).
      assert (OW : Z.odd (zlen w) = negb (Z.odd (zlen name))) by (rewrite LW; replace (22 + zlen name + 1) with (zlen name + 1 + 2 * 11) by lia; rewrite Z.odd_add_mul_2; rewrite Z.odd_add; destruct (Z.odd (zlen name)); reflexivity).
      rewrite OW, LW. unfold w. rewrite <- !app_assoc. destruct (Z.odd (zlen name)); reflexivity.
    - rewrite !app_nil_r. apply (chunk_even b32); [rewrite !zlen_app, !b16_len, b32_len, LX; reflexivity|reflexivity]. }
  rewrite EU at 1. unfold AIFF.aiffBody. rewrite EC, (marks_chunk (AIFF.ax_marks x) VM VN).
  assert (EI : AIFF.instBytes (AIFF.ax_inst x) = chunkB (letters "INST") (instRecord (AIFF.ax_inst x))).
  { unfold AIFF.instBytes, AIFF.be2, AIFF.be4. rewrite !so1, !sb2, sb4. reflexivity. }
  assert (EA : AIFF.aesBytes (AIFF.ax_aes x) = match AIFF.ax_aes x with Some d => chunkB (letters "AESD") d | None => [] end).
  { unfold AIFF.aesBytes. destruct (AIFF.ax_aes x) as [a|]; [|reflexivity]. unfold AIFF.be4. rewrite sb4. apply (chunk_even b32); [now apply VA|reflexivity]. }
  rewrite EI, EA. unfold AIFF.ssndBytes, AIFF.fverBytes, AIFF.be4. rewrite !sb4, <- !app_assoc. destruct (AIFF.ax_marks x), aifc; reflexivity.
Qed.
Print Assumptions C77_aiff_layout_partial.

(** ** WAVE files *)
Definition adaptCoefficients : list (Z * Z) := [(256, 0); (512, -256); (0, 0); (192, 64); (240, 0); (460, -208); (392, -232)].   (* Microsoft's seven pairs *)
(** Format tag, bytes per second, block size, bits per sample, and what the format adds. *)
Inductive waveCode (r ch : Z) : format -> Z -> Z -> Z -> Z -> list Z -> Prop :=
| WC_8 o : waveCode r ch (mkFmt r Unsigned 8 ch o CNone 1 ch) 1 (r * ch) ch 8 []
| WC_int n o : 2 <= n <= 4 -> waveCode r ch (mkFmt r TwosComp (8 * n) ch o CNone 1 (n * ch)) 1 (r * (n * ch)) (n * ch) (8 * n) []
| WC_float o : waveCode r ch (mkFmt r Float 32 ch o CNone 1 (4 * ch)) 3 (r * (4 * ch)) (4 * ch) 32 []
| WC_double o : waveCode r ch (mkFmt r Double 64 ch o CNone 1 (8 * ch)) 3 (r * (8 * ch)) (8 * ch) 64 []
| WC_ulaw o : waveCode r ch (mkFmt r TwosComp 16 ch o CUlaw 1 ch) 257 (r * ch) ch 8 (l16 0)   (* IBM's tags *)
| WC_alaw o : waveCode r ch (mkFmt r TwosComp 16 ch o CAlaw 1 ch) 258 (r * ch) ch 8 (l16 0)
| WC_ima o : waveCode r ch (mkFmt r TwosComp 16 ch o CIMA 505 (256 * ch)) 17 (r * (256 * ch) / 505) (256 * ch) 4 (l16 2 ++ l16 505)
| WC_ms o : waveCode r ch (mkFmt r TwosComp 16 ch o CMSADPCM 500 (256 * ch)) 2 (r * (256 * ch) / 500) (256 * ch) 4
    (l16 32 ++ l16 500 ++ l16 7 ++ concat (map (fun c => l16 (fst c) ++ l16 (snd c)) adaptCoefficients)).
Inductive infoId : Z -> list Z -> Prop :=   (* copyright, author, name, comment, date, software *)
| NI_copy : infoId 201 (letters "ICOP") | NI_auth : infoId 202 (letters "IART") | NI_name : infoId 203 (letters "INAM") | NI_cmt : infoId 210 (letters "ICMT")
| NI_date : infoId 211 (letters "ICRD") | NI_soft : infoId 212 (letters "ISFT").
(** A string that ends in one zero byte, or two to make an even number. *)
Definition zeroEnded (s : list Z) : list Z := s ++ [0] ++ (if Z.odd (zlen s) then [] else [0]).
(** A cue point: id, place in the playing order, the chunk it is in, where that chunk and the block start, and the frame. *)
Fixpoint cuePoints (i : Z) (ms : list WAVE.wmarker) : list Z :=
  match ms with [] => [] | m :: ms => l32 (WAVE.wm_id m) ++ l32 i ++ letters "data" ++ l32 0 ++ l32 0 ++ l32 (WAVE.wm_pos m) ++ cuePoints (i + 1) ms end.
Definition labels (ms : list WAVE.wmarker) : list Z :=
  concat (map (fun m => chunkL (letters "labl") (l32 (WAVE.wm_id m) ++ zeroEnded (WAVE.wm_name m)) ++ chunkL (letters "note") (l32 (WAVE.wm_id m) ++ zeroEnded (WAVE.wm_comment m))) ms).
(** The last chunk is the one with the samples.  Nothing follows it. *)
Definition waveLayout (fm : format) (x : WAVE.wextra) (total : Z) (audio bytes : list Z) : Prop :=
  exists tag avg align bits extra info, waveCode (f_rate fm) (f_chan fm) fm tag avg align bits extra /\ miscChunks infoId chunkL (WAVE.wx_misc x) info /\ zlen audio = audioBytes fm total /\
    bytes = letters "RIFF" ++ l32 (zlen bytes - 8) ++ letters "WAVE" ++
      (match WAVE.wx_misc x with [] => [] | _ => chunkL (letters "LIST") (letters "INFO" ++ info) end) ++
      (match WAVE.wx_marks x with [] => [] | _ => chunkL (letters "cue ") (l32 (zlen (WAVE.wx_marks x)) ++ cuePoints 0 (WAVE.wx_marks x)) ++ chunkL (letters "LIST") (letters "adtl" ++ labels (WAVE.wx_marks x)) end) ++
      chunkL (letters "fmt ") (l16 tag ++ l16 (f_chan fm) ++ l32 (f_rate fm) ++ l32 avg ++ l16 align ++ l16 bits ++ extra) ++
      (if tag =? 1 then [] else chunkL (letters "fact") (l32 total)) ++
      letters "data" ++ l32 (zlen audio) ++ audio.

Lemma zero_even s : WAVE.zstring s = zeroEnded s.
Proof. unfold WAVE.zstring, zeroEnded. rewrite odd_mod, Z.odd_add. destruct (Z.odd (zlen s)); reflexivity. Qed.
Lemma zero_len s : Z.odd (zlen (zeroEnded s)) = false.
Proof. unfold zeroEnded. rewrite !zlen_app, !Z.odd_add. destruct (Z.odd (zlen s)); reflexivity. Qed.
Lemma wave_misc ms : Forall PropertiesWAVE.validMisc ms -> miscChunks infoId chunkL ms (concat (map WAVE.infoEntry ms)).
Proof.
  induction 1 as [|m ms Hm _ IH]; [reflexivity|]. cbn [miscChunks map concat]. unfold PropertiesWAVE.validMisc in Hm. unfold WAVE.infoEntry at 1.
  destruct (WAVE.waveMiscTag (fst m)) as [tag|] eqn:Et; [|congruence]. exists tag, (concat (map WAVE.infoEntry ms)). split; [|split; [exact IH|now rewrite chunk_little]].
  unfold WAVE.waveMiscTag in Et. repeat match type of Et with (if ?b then _ else _) = _ => destruct b eqn:?; [apply Z.eqb_eq in Heqb; rewrite Heqb; inversion Et; constructor|clear Heqb] end. discriminate.
Qed.
Lemma cue_points ms : forall i, WAVE.cueEntries i ms = cuePoints (Z.of_nat i) ms.
Proof.
  induction ms as [|m ms IH]; intros i; [reflexivity|]. cbn [WAVE.cueEntries cuePoints]. rewrite IH. unfold WAVE.cueEntry, VOC.le4. rewrite !sl4, <- !app_assoc.
  replace (Z.of_nat (S i)) with (Z.of_nat i + 1) by lia. reflexivity.
Qed.
Lemma cue_points0 ms : cuePoints 0 ms = WAVE.cueEntries 0 ms.
Proof. now rewrite (cue_points ms 0). Qed.
Lemma label_chunks ms : concat (map WAVE.labelEntry ms) = labels ms.
Proof.
  induction ms as [|m ms IH]; [reflexivity|]. unfold labels in *. cbn [map concat]. rewrite IH. f_equal. unfold WAVE.labelEntry, VOC.le4. rewrite !sl4, !zero_even.
  rewrite <- (chunk_even l32 (letters "labl") _ (4 + zlen (zeroEnded (WAVE.wm_name m)))); [|rewrite zlen_app; reflexivity|rewrite Z.odd_add, zero_len; reflexivity].
  rewrite <- (chunk_even l32 (letters "note") _ (4 + zlen (zeroEnded (WAVE.wm_comment m)))); [|rewrite zlen_app; reflexivity|rewrite Z.odd_add, zero_len; reflexivity].
  rewrite <- !app_assoc. reflexivity.
Qed.
Lemma odd_even x : x mod 2 = 0 -> Z.odd x = false.
Proof. rewrite Zmod_odd. destruct (Z.odd x); [discriminate|reflexivity]. Qed.
Lemma info_chunk ms : Forall PropertiesWAVE.validMisc ms -> WAVE.infoBytes ms = match ms with [] => [] | _ => chunkL (letters "LIST") (letters "INFO" ++ concat (map WAVE.infoEntry ms)) end.
Proof.
  intros Hv. unfold WAVE.infoBytes. destruct ms as [|m0 ms0]; [reflexivity|]. set (ms := m0 :: ms0) in *. cbv zeta. unfold VOC.le4. rewrite sl4. apply (chunk_even l32); [rewrite zlen_app; reflexivity|].
  rewrite Z.odd_add. rewrite (odd_even _ (PropertiesWAVE.infos_even ms Hv)). reflexivity.
Qed.
Lemma cue_chunks ms : WAVE.cueBytes ms = match ms with [] => [] | _ => chunkL (letters "cue ") (l32 (zlen ms) ++ cuePoints 0 ms) ++ chunkL (letters "LIST") (letters "adtl" ++ labels ms) end.
Proof.
  unfold WAVE.cueBytes. destruct ms as [|m0 ms0]; [reflexivity|]. set (ms := m0 :: ms0) in *. unfold VOC.le4. rewrite !sl4.
  rewrite <- (chunk_even l32 (letters "cue ") _ (4 + zlen ms * 24)); [|rewrite zlen_app, cue_points0, PropertiesWAVE.cueEntries_len, l32_len; lia|replace (4 + zlen ms * 24) with (2 * (2 + zlen ms * 12)) by lia; rewrite Z.odd_mul; reflexivity].
  rewrite <- (chunk_even l32 (letters "LIST") _ (4 + zlen (concat (map WAVE.labelEntry ms)))); [|rewrite zlen_app, label_chunks; reflexivity|rewrite Z.odd_add, (odd_even _ (PropertiesWAVE.labels_even ms)); reflexivity].
  rewrite cue_points0, label_chunks, <- !app_assoc. reflexivity.
Qed.
Lemma Ok_inj {A} (x y : A) : Ok x = Ok y -> x = y. Proof. congruence. Qed.
Lemma toU_eq n x y : WAVE.toUnsigned n x = Ok y -> y = x.
Proof. unfold WAVE.toUnsigned. destruct (_ && _); [|discriminate]. intros H. now apply Ok_inj in H. Qed.
Lemma ck32_eq x y : ck32 x = Ok y -> y = x.
Proof. unfold ck32. destruct (inS 32 x); [|discriminate]. intros H. now apply Ok_inj in H. Qed.

Lemma fmt_chunk host fm fb : PropertiesWAVE.waveFmt host fm -> WAVE.fmtBytes fm = Ok fb ->
  exists tag avg align bits extra, waveCode (f_rate fm) (f_chan fm) fm tag avg align bits extra /\ (tag =? 1) = negb (WAVE.hasFact fm) /\
    fb = chunkL (letters "fmt ") (l16 tag ++ l16 (f_chan fm) ++ l32 (f_rate fm) ++ l32 avg ++ l16 align ++ l16 bits ++ extra).
Proof.
  intros Hf H. unfold WAVE.fmtBytes in H. apply rbind_Ok in H as ([[[cs tag] ba] bits] & F & H). apply rbind_Ok in H as (rate & E1 & H). apply toU_eq in E1 as ->.
  apply rbind_Ok in H as (fs & E2 & H). apply ck32_eq in E2 as ->. apply rbind_Ok in H as (av & E3 & H). apply toU_eq in E3 as ->. apply rbind_Ok in H as (avg & E4 & H). apply Ok_inj in H as <-.
  unfold WAVE.fmtFields in F. change (2 ^ 32) with 4294967296 in *.
  assert (FIN : forall content, zlen content = cs -> Z.odd cs = false -> le_bytes 4 cs = le_bytes 4 cs -> WAVE.T_fmt ++ VOC.le4 cs ++ content = chunkL (letters "fmt ") content).
  { intros content Lc Oc _. unfold VOC.le4. rewrite sl4. apply (chunk_even l32); assumption. }
  destruct Hf as [n ch rate -> Hn Hc Hba Hr Hav|ch rate -> Hc Hba Hr Hav|ch rate -> Hc Hba Hr Hav|c ch rate -> Hcc Hc Hr Hav|ch rate -> Hc Hr Hav|ch rate -> Hc Hr Hav]; cbn [f_comp f_chan f_rate f_sf f_width f_bpp f_fpp] in *.
  - assert (SS : WAVE.sampleSize (mkFmt rate (if n =? 1 then Unsigned else TwosComp) (8 * n) ch LittleEndian CNone 1 (n * ch)) = n).
    { unfold WAVE.sampleSize. cbn [f_sf f_width]. rewrite Z.quot_div_nonneg by lia. destruct (n =? 1); lia. }
    rewrite SS in *. apply rbind_Ok in F as (fs & E2 & F). apply ck32_eq in E2 as ->. apply rbind_Ok in F as (ba' & E3 & F). apply toU_eq in E3 as ->. apply Ok_inj in F. injection F as <- <- <- <-.
    apply Ok_inj in E4 as <-. cbn [WAVE.squish]. rewrite Z.quot_1_r.
    exists 1, (rate * (n * ch)), (n * ch), (8 * n), []. split; [|split].
    + destruct (n =? 1) eqn:E; [assert (n = 1) as -> by lia; change (8 * 1) with 8; replace (1 * ch) with ch by lia; constructor|constructor; lia].
    + unfold WAVE.hasFact, WAVE.isInt. cbn [f_comp f_sf]. destruct (n =? 1); reflexivity.
    + unfold WAVE.fmtTail. cbn [f_comp]. unfold WAVE.isInt. cbn [f_sf]. replace (if match (if n =? 1 then Unsigned else TwosComp) with TwosComp | Unsigned => true | _ => false end then 1 else 3) with 1 by (destruct (n =? 1); reflexivity).
      unfold VOC.le2 in *. unfold VOC.le4. rewrite !sl2, !sl4. apply (chunk_even l32); reflexivity.
  - apply rbind_Ok in F as (fs & E2 & F). apply ck32_eq in E2 as ->. apply rbind_Ok in F as (ba' & E3 & F). apply toU_eq in E3 as ->. apply Ok_inj in F. injection F as <- <- <- <-.
    apply Ok_inj in E4 as <-. cbn [WAVE.squish]. rewrite Z.quot_1_r. change (WAVE.sampleSize _) with 4.
    exists 3, (rate * (4 * ch)), (4 * ch), 32, []. split; [constructor|]. split; [reflexivity|].
    unfold WAVE.fmtTail. cbn [f_comp]. unfold VOC.le2 in *. unfold VOC.le4. rewrite !sl2, !sl4. apply (chunk_even l32); reflexivity.
  - apply rbind_Ok in F as (fs & E2 & F). apply ck32_eq in E2 as ->. apply rbind_Ok in F as (ba' & E3 & F). apply toU_eq in E3 as ->. apply Ok_inj in F. injection F as <- <- <- <-.
    apply Ok_inj in E4 as <-. cbn [WAVE.squish]. rewrite Z.quot_1_r. change (WAVE.sampleSize _) with 8.
    exists 3, (rate * (8 * ch)), (8 * ch), 64, []. split; [constructor|]. split; [reflexivity|].
    unfold WAVE.fmtTail. cbn [f_comp]. unfold VOC.le2 in *. unfold VOC.le4. rewrite !sl2, !sl4. apply (chunk_even l32); reflexivity.
  - assert (Q : Z.quot (rate * (WAVE.sampleSize (mkFmt rate TwosComp 16 ch host c 1 ch) * ch)) (WAVE.squish c) = rate * ch).
    { change (WAVE.sampleSize _) with 2. replace (WAVE.squish c) with 2 by (destruct Hcc as [-> | ->]; reflexivity). replace (rate * (2 * ch)) with (rate * ch * 2) by ring. now rewrite Z.quot_mul. }
    rewrite Q in *. destruct Hcc as [-> | ->]; apply Ok_inj in F; injection F as <- <- <- <-; apply Ok_inj in E4 as <-.
    + exists 257, (rate * ch), ch, 8, (l16 0). split; [constructor|]. split; [reflexivity|]. unfold WAVE.fmtTail. cbn [f_comp]. unfold VOC.le2 in *. unfold VOC.le4. rewrite !sl2, !sl4. apply (chunk_even l32); reflexivity.
    + exists 258, (rate * ch), ch, 8, (l16 0). split; [constructor|]. split; [reflexivity|]. unfold WAVE.fmtTail. cbn [f_comp]. unfold VOC.le2 in *. unfold VOC.le4. rewrite !sl2, !sl4. apply (chunk_even l32); reflexivity.
  - apply Ok_inj in F. injection F as <- <- <- <-. apply toU_eq in E4 as ->. rewrite Z.quot_div_nonneg by nia.
    exists 17, (rate * (256 * ch) / 505), (256 * ch), 4, (l16 2 ++ l16 505). split; [constructor|]. split; [reflexivity|]. unfold WAVE.fmtTail. cbn [f_comp f_fpp]. unfold VOC.le2 in *. unfold VOC.le4. rewrite !sl2, !sl4. apply (chunk_even l32); reflexivity.
  - apply Ok_inj in F. injection F as <- <- <- <-. apply toU_eq in E4 as ->. rewrite Z.quot_div_nonneg by nia.
    exists 2, (rate * (256 * ch) / 500), (256 * ch), 4, (l16 32 ++ l16 500 ++ l16 7 ++ concat (map (fun c => l16 (fst c) ++ l16 (snd c)) adaptCoefficients)). split; [constructor|]. split; [reflexivity|].
    unfold WAVE.fmtTail. cbn [f_comp f_fpp]. unfold VOC.le2 in *. unfold VOC.le4. rewrite !sl2, !sl4. 
    change (concat (map (fun c0 : Z * Z => sampleBytes LittleEndian 2 (fst c0) ++ sampleBytes LittleEndian 2 (snd c0)) MSADPCM.defaultCoefficients)) with (concat (map (fun c0 : Z * Z => l16 (fst c0) ++ l16 (snd c0)) adaptCoefficients)).
    apply (chunk_even l32); reflexivity.
Qed.

Theorem C77_wave_layout_partial :
  forall (B : Build) host fm fb, PropertiesWAVE.waveFmt host fm -> WAVE.fmtBytes fm = Ok fb ->
  forall x0 x, PropertiesWAVE.validExtra x0 -> PropertiesWAVE.validExtra x -> PropertiesWAVE.sameLayout x0 x ->
  forall E c okF okE, library E c okF okE -> codecOf c fm ->
  forall (V : Type) (conv : V -> list Z) junk cap e0 (ws : list (list V)),
    okF junk -> okE e0 -> room c cap -> Forall okF (map conv (concat ws)) ->
    writesFile B c conv junk (WAVE.waveUpdate fb fm x0 x) (WAVE.waveInit fb fm x0) (WAVE.waveFirst fb fm x0) cap e0 ws (waveLayout fm x).
Proof.
  intros B host fm fb Hf Hb x0 x V0 V1 SL E c okF okE HL HC V conv junk cap e0 ws Hj He Hro Hok.
  pose proof (zlen_nonneg (WAVE.waveBody fb fm x0 0 0)) as Z0. pose proof (zlen_nonneg (concat ws)) as Z1.
  apply (written_file B E c okF okE fm HL HC); auto; try (unfold WAVE.waveFirst; lia).
  intros d t T1 T2 T3 T4 L. set (n := zlen (concat ws)) in *.
  assert (Lh : zlen (WAVE.waveInit fb fm x0) = WAVE.waveFirst fb fm x0).
  { unfold WAVE.waveInit, WAVE.waveFirst. rewrite !zlen_app. unfold VOC.le4. rewrite sampleBytes_zlen. change (zlen WAVE.T_RIFF) with 4. change (zlen WAVE.T_WAVE) with 4. lia. }
  set (f := mkFile _ _).
  assert (Ef : fbytes f = WAVE.T_RIFF ++ VOC.le4 0 ++ WAVE.T_WAVE ++ WAVE.infoBytes (WAVE.wx_misc x0) ++ WAVE.cueBytes (WAVE.wx_marks x0) ++ fb ++ WAVE.factBytes fm 0 ++ WAVE.T_data ++ VOC.le4 0 ++ d).
  { unfold f. cbn [fbytes]. rewrite <- Lh at 1. rewrite ow_at_end. unfold WAVE.waveInit, WAVE.waveBody. rewrite <- !app_assoc. reflexivity. }
  pose proof (PropertiesWAVE.waveUpdate_front fb fm x0 x f t (VOC.le4 0) _ _ _ (VOC.le4 0) d V0 V1 SL ltac:(reflexivity) eq_refl eq_refl eq_refl ltac:(reflexivity) Ef) as EU.
  rewrite T2, T3 in EU. set (bytes := fbytes (WAVE.waveUpdate fb fm x0 x f t)) in *.
  assert (EL : zlen bytes = flength f).
  { rewrite EU. unfold flength. rewrite Ef. rewrite !zlen_app. rewrite (PropertiesWAVE.body_len fb fm x x0 n 0 (zlen d) 0 V1 V0); [|destruct SL as [S1 S2]; split; congruence].
    unfold WAVE.waveBody. rewrite !zlen_app. unfold VOC.le4. rewrite !sampleBytes_zlen. lia. }
  rewrite <- EL in EU. destruct (fmt_chunk host fm fb Hf Hb) as (tag & avg & align & bits & extra & G & EH & EB).
  exists tag, avg, align, bits, extra, (concat (map WAVE.infoEntry (WAVE.wx_misc x))). split; [exact G|]. split; [apply wave_misc, V1|]. split; [exact L|].
  rewrite EU at 1. unfold WAVE.waveBody. rewrite EB, EH, (info_chunk (WAVE.wx_misc x)) by apply V1. rewrite cue_chunks. unfold WAVE.factBytes, VOC.le4. rewrite !sl4, <- !app_assoc.
  replace (if negb (WAVE.hasFact fm) then [] else chunkL (letters "fact") (l32 n)) with (if WAVE.hasFact fm then WAVE.T_fact ++ l32 4 ++ l32 n else []) by (destruct (WAVE.hasFact fm); reflexivity).
  reflexivity.
Qed.
Print Assumptions C77_wave_layout_partial.

(** ** NIST SPHERE files *)
(** [s] is the number [n] in decimal, without leading zeros. *)
Definition inDecimal (n : Z) (s : list Z) : Prop :=
  s <> [] /\ Forall (fun c => 48 <= c <= 57) s /\ fold_left (fun v c => v * 10 + (c - 48)) s 0 = n /\ (s = [48] \/ hd 0 s <> 48).
Definition newline : list Z := [10].
(** Bytes per sample, byte order (one byte has none), coding. *)
Inductive nistCode (ch : Z) : format -> Z -> list Z -> list Z -> Prop :=
| NI_little r w : 9 <= w <= 16 -> nistCode ch (mkFmt r TwosComp w ch LittleEndian CNone 1 (2 * ch)) 2 (letters "01") (letters "pcm")
| NI_big r w : 9 <= w <= 16 -> nistCode ch (mkFmt r TwosComp w ch BigEndian CNone 1 (2 * ch)) 2 (letters "10") (letters "pcm")
| NI_ulaw r o : nistCode ch (mkFmt r TwosComp 16 ch o CUlaw 1 ch) 1 (letters "0") (letters "ulaw")
| NI_alaw r o : nistCode ch (mkFmt r TwosComp 16 ch o CAlaw 1 ch) 1 (letters "0") (letters "alaw").
Definition nistLayout (fm : format) (total : Z) (audio bytes : list Z) : Prop :=
  exists nbytes byteFormat coding text chan count rate width,
    nistCode (f_chan fm) fm nbytes byteFormat coding /\ zlen audio = audioBytes fm total /\
    inDecimal (f_chan fm) chan /\ inDecimal total count /\ inDecimal (f_rate fm) rate /\ inDecimal (f_width fm) width /\
    text = letters "NIST_1A" ++ newline ++ letters "   1024" ++ newline ++
      letters "channel_count -i " ++ chan ++ newline ++ letters "sample_count -i " ++ count ++ newline ++ letters "sample_rate -i " ++ rate ++ newline ++
      letters "sample_n_bytes -i " ++ [48 + nbytes] ++ newline ++ letters "sample_byte_format -s" ++ [48 + nbytes] ++ letters " " ++ byteFormat ++ newline ++
      letters "sample_sig_bits -i " ++ width ++ newline ++ letters "sample_coding -s" ++ [48 + zlen coding] ++ letters " " ++ coding ++ newline ++
      letters "end_head" ++ newline /\
    zlen text <= 1024 /\ bytes = text ++ zrepeat 32 (1024 - zlen text) ++ audio.

Lemma digits_lead fuel : forall n, 0 < n < 10 ^ Z.of_nat fuel -> (1 <= fuel)%nat -> hd 0 (NIST.digits fuel n) <> 48.
Proof.
  induction fuel as [|fuel IH]; intros n Hn Hf; [lia|]. cbn [NIST.digits]. destruct (n <? 10) eqn:E.
  - cbn [app hd]. rewrite Z.mod_small by lia. lia.
  - assert (Hp : 10 ^ Z.of_nat (S fuel) = 10 * 10 ^ Z.of_nat fuel) by (replace (Z.of_nat (S fuel)) with (Z.succ (Z.of_nat fuel)) by lia; apply Z.pow_succ_r; lia).
    assert (Hq : 0 < n / 10 < 10 ^ Z.of_nat fuel) by lia. destruct fuel as [|fuel']; [change (10 ^ Z.of_nat 0) with 1 in *; lia|].
    specialize (IH (n / 10) Hq ltac:(lia)). destruct (PropertiesNIST.digits_spec (S fuel') (n / 10) ltac:(lia) ltac:(lia)) as (_ & _ & NE & _).
    destruct (NIST.digits (S fuel') (n / 10)) as [|d ds]; [congruence|]. exact IH.
Qed.
Lemma decimal_ok n : 0 <= n < 2 ^ 31 -> inDecimal n (NIST.decimal n).
Proof.
  intros Hn. destruct (PropertiesNIST.decimal_spec n Hn) as (A & V & NE & _). split; [exact NE|]. split; [exact A|]. split; [exact V|].
  destruct (Z.eq_dec n 0) as [-> |Hz]; [left; reflexivity|right]. unfold NIST.decimal. replace (n <? 0) with false by lia. apply digits_lead; [|lia].
  change (2 ^ 31) with 2147483648 in Hn. change (10 ^ Z.of_nat 10) with 10000000000. lia.
Qed.
Theorem C77_nist_layout :
  forall (B : Build) host rate ch fm, PropertiesNIST.nistFmt host rate ch fm -> 0 < rate < 2 ^ 31 -> 0 < ch -> 2 * ch < 2 ^ 31 ->
  forall E c okF okE, library E c okF okE -> codecOf c fm ->
  forall (V : Type) (conv : V -> list Z) junk cap e0 (ws : list (list V)),
    okF junk -> okE e0 -> room c cap -> Forall okF (map conv (concat ws)) -> zlen (concat ws) < 2 ^ 31 ->
    writesFile B c conv junk (NIST.nistUpdate fm) (NIST.nistInit fm) NIST.nistFirst cap e0 ws (nistLayout fm).
Proof.
  intros B host rate ch fm Hf Hr Hc Hc2 E c okF okE HL HC V conv junk cap e0 ws Hj He Hro Hok Hsz. pose proof (zlen_nonneg (concat ws)) as Z1.
  apply (written_file B E c okF okE fm HL HC); auto; try (unfold NIST.nistFirst; lia).
  intros d t T1 T2 T3 T4 L. set (n := zlen (concat ws)) in *.
  destruct (PropertiesNIST.nist_header_shape host rate ch fm 0 Hf Hr Hc Hc2 ltac:(change (2 ^ 31) with 2147483648; lia)) as [L0 _].
  destruct (PropertiesNIST.nist_header_shape host rate ch fm n Hf Hr Hc Hc2 ltac:(lia)) as [Ln _].
  unfold NIST.nistUpdate, fwrite, fseek. cbn [fbytes fpos]. unfold NIST.nistInit. change NIST.nistFirst with 1024. rewrite <- L0 at 1. rewrite ow_at_end, T2.
  pose proof (ow_mid [] (NIST.nistHeader fm 0) (NIST.nistHeader fm n) d ltac:(congruence)) as OM. cbn [app] in OM. change (zlen (@nil Z)) with 0 in OM. rewrite OM. clear OM.
  assert (EF : f_rate fm = rate /\ f_chan fm = ch /\ 9 <= f_width fm <= 16) by (destruct Hf as [w o -> Hw|c0 -> Hcc]; cbn; lia). destruct EF as (ER & ECh & EW).
  assert (G : exists bf co, nistCode ch fm (NIST.nistBytes fm) bf co /\ NIST.nistByteFormat fm = bf /\ NIST.nistCoding fm = co /\ 0 <= NIST.nistBytes fm < 10 /\ 0 <= zlen co < 10).
  { assert (QW : forall w, 9 <= w <= 16 -> Z.quot (w + 7) 8 = 2) by (intros w Hw; rewrite Z.quot_div_nonneg by lia; lia).
    destruct Hf as [w o -> Hw|c0 -> [-> | ->]]; unfold NIST.nistByteFormat, NIST.nistBytes, NIST.nistCoding; cbn [f_comp f_width f_order].
    - rewrite QW by exact Hw. change (2 =? 1) with false. cbv iota. destruct o; do 2 eexists; (split; [constructor; exact Hw|]); split; try reflexivity; split; try reflexivity; cbn; lia.
    - do 2 eexists. split; [constructor|]. split; [reflexivity|]. split; [reflexivity|]. cbn; lia.
    - do 2 eexists. split; [constructor|]. split; [reflexivity|]. split; [reflexivity|]. cbn; lia. }
  destruct G as (bf & co & G & E1 & E2 & B1 & B2).
  assert (D1 : forall v, 0 <= v < 10 -> NIST.decimal v = [48 + v]).
  { intros v Hv. unfold NIST.decimal. replace (v <? 0) with false by lia. cbn [NIST.digits]. replace (v <? 10) with true by lia. rewrite Z.mod_small by lia. reflexivity. }
  assert (ES : s32 n = n) by (apply PropertiesNIST.s32_id; lia). change (2 ^ 31) with 2147483648 in *.
  exists (NIST.nistBytes fm), bf, co, (NIST.nistText fm n), (NIST.decimal ch), (NIST.decimal n), (NIST.decimal rate), (NIST.decimal (f_width fm)).
  rewrite ECh, ER. split; [exact G|]. split; [exact L|]. do 4 (split; [apply decimal_ok; change (2 ^ 31) with 2147483648; lia|]). split; [|split].
  - unfold NIST.nistText, NIST.intLine, NIST.strLine, NIST.line. rewrite E1, E2, ES, ECh, ER, (D1 (NIST.nistBytes fm)), (D1 (zlen co)) by assumption.
    cbn [app]. repeat (rewrite <- ?app_assoc; cbn [app]). reflexivity.
  - unfold NIST.nistHeader in Ln. cbv zeta in Ln. rewrite zlen_app in Ln. pose proof (zlen_nonneg (zrepeat 32 (1024 - zlen (NIST.nistText fm n)))). lia.
  - unfold NIST.nistHeader. cbv zeta. rewrite <- app_assoc. reflexivity.
Qed.
Print Assumptions C77_nist_layout.

(** ** What does not conform *)
(** A sequence of chunks takes an even number of bytes, and so does a whole FORM or RIFF file.  AIFF and WAVE files whose audio is an odd number of bytes do not: the byte that should follow it is missing. *)
Definition oneByteWave : format := mkFmt 8000 Unsigned 8 1 LittleEndian CNone 1 1.
Definition oneByteAiff : formatOf spec_float := mkFmt PropertiesAIFF.ex44100 TwosComp 8 1 BigEndian CNone 1 1.
Theorem C77_wave_pad_refuted : forall B : Build, exists fb st,
  PropertiesWAVE.waveFmt LittleEndian oneByteWave /\ WAVE.fmtBytes oneByteWave = Ok fb /\
  wrun (pcmW LittleEndian 1 1) (fun x => x) [0] true (WAVE.waveUpdate fb oneByteWave (WAVE.WExtra [] []) (WAVE.WExtra [] []))
    (openWrite (pcmW LittleEndian 1 1) (WAVE.waveInit fb oneByteWave (WAVE.WExtra [] [])) (WAVE.waveFirst fb oneByteWave (WAVE.WExtra [] [])) 1024 tt) [Write [[200]]; Sync] = Ok st /\
  fbytes (ws_file st) = letters "RIFF" ++ l32 37 ++ letters "WAVE" ++ chunkL (letters "fmt ") (l16 1 ++ l16 1 ++ l32 8000 ++ l32 8000 ++ l16 1 ++ l16 8) ++ letters "data" ++ l32 1 ++ [200] /\
  Z.odd (zlen (fbytes (ws_file st))) = true.
Proof.
  intros B. destruct (WAVE.fmtBytes oneByteWave) as [fb| | |] eqn:EF; try (vm_compute in EF; discriminate EF).
  assert (R : rmap (fun st => fbytes (ws_file st)) (wrun (pcmW LittleEndian 1 1) (fun x => x) [0] true (WAVE.waveUpdate fb oneByteWave (WAVE.WExtra [] []) (WAVE.WExtra [] []))
    (openWrite (pcmW LittleEndian 1 1) (WAVE.waveInit fb oneByteWave (WAVE.WExtra [] [])) (WAVE.waveFirst fb oneByteWave (WAVE.WExtra [] [])) 1024 tt) [Write [[200]]; Sync]) =
    Ok (letters "RIFF" ++ l32 37 ++ letters "WAVE" ++ chunkL (letters "fmt ") (l16 1 ++ l16 1 ++ l32 8000 ++ l32 8000 ++ l16 1 ++ l16 8) ++ letters "data" ++ l32 1 ++ [200])).
  { vm_compute in EF. apply Ok_inj in EF. rewrite <- EF. destruct B; vm_compute; reflexivity. }
  destruct (wrun _ _ _ _ _ _ _) as [st| | |] eqn:W; try discriminate R. exists fb, st. apply Ok_inj in R.
  split; [apply (PropertiesWAVE.WF_int LittleEndian _ 1 1 8000); reflexivity || lia|]. split; [reflexivity|]. split; [exact W|]. split; [exact R|]. rewrite R. reflexivity.
Qed.
Print Assumptions C77_wave_pad_refuted.

Theorem C77_aiff_pad_refuted : forall B : Build, exists st,
  let x := AIFF.AExtra [] PropertiesAIFF.exInst None [] in
  PropertiesAIFF.aiffFmt LittleEndian PropertiesAIFF.ex44100 false oneByteAiff /\
  wrun (pcmW BigEndian 1 1) (fun x => x) [0] true (AIFF.aiffUpdate false oneByteAiff x)
    (openWrite (pcmW BigEndian 1 1) (AIFF.aiffInit false oneByteAiff x) (AIFF.aiffFirst false oneByteAiff x) 1024 tt) [Write [[-7]]; Sync] = Ok st /\
  fbytes (ws_file st) = letters "FORM" ++ b32 75 ++ letters "AIFF" ++ chunkB (letters "COMM") (b16 1 ++ b32 1 ++ b16 8 ++ [64; 14; 172; 68; 0; 0; 0; 0; 0; 0]) ++
    chunkB (letters "INST") (instRecord PropertiesAIFF.exInst) ++ letters "SSND" ++ b32 9 ++ b32 0 ++ b32 0 ++ [249] /\
  Z.odd (zlen (fbytes (ws_file st))) = true.
Proof.
  intros B. set (x := AIFF.AExtra [] PropertiesAIFF.exInst None []).
  assert (R : rmap (fun st => fbytes (ws_file st)) (wrun (pcmW BigEndian 1 1) (fun x => x) [0] true (AIFF.aiffUpdate false oneByteAiff x)
    (openWrite (pcmW BigEndian 1 1) (AIFF.aiffInit false oneByteAiff x) (AIFF.aiffFirst false oneByteAiff x) 1024 tt) [Write [[-7]]; Sync]) =
    Ok (letters "FORM" ++ b32 75 ++ letters "AIFF" ++ chunkB (letters "COMM") (b16 1 ++ b32 1 ++ b16 8 ++ [64; 14; 172; 68; 0; 0; 0; 0; 0; 0]) ++
    chunkB (letters "INST") (instRecord PropertiesAIFF.exInst) ++ letters "SSND" ++ b32 9 ++ b32 0 ++ b32 0 ++ [249])) by (destruct B; vm_compute; reflexivity).
  destruct (wrun _ _ _ _ _ _ _) as [st| | |] eqn:W; try discriminate R. exists st. cbv zeta. apply Ok_inj in R.
  split; [apply (PropertiesAIFF.AF_int LittleEndian _ false 8 1); lia|]. split; [exact W|]. split; [exact R|]. rewrite R. reflexivity.
Qed.
Print Assumptions C77_aiff_pad_refuted.

(** ** The hypotheses are met *)
Example C77_example : forall B : Build,
  let ws := [[[1; -2]; [3; 4]]; []; [[-32768; 32767]]] in
  writesFile B (pcmW BigEndian 2 2) (fun x => x) [0; 0] CAF.cafUpdate (CAF.cafInit (mkFmt PropertiesAIFF.ex44100 TwosComp 16 2 BigEndian CNone 1 4)) CAF.cafFirst 1024 tt ws
    (cafLayout (mkFmt PropertiesAIFF.ex44100 TwosComp 16 2 BigEndian CNone 1 4)) /\
  writesFile B (ulawW 2) (fun x => x) [0; 0] (NeXT.nextUpdate (mkFmt 8000 TwosComp 16 2 LittleEndian CUlaw 1 2)) (NeXT.nextInit (mkFmt 8000 TwosComp 16 2 LittleEndian CUlaw 1 2)) NeXT.nextFirst 1024 tt ws
    (nextLayout (mkFmt 8000 TwosComp 16 2 LittleEndian CUlaw 1 2)) /\
  writesFile B (pcmW BigEndian 2 2) (fun x => x) [0; 0] AVR.avrUpdate (AVR.avrInit (repeat 65 8) (mkFmt 44100 TwosComp 16 2 BigEndian CNone 1 4)) AVR.avrFirst 1024 tt ws
    (avrLayout (repeat 65 8) (mkFmt 44100 TwosComp 16 2 BigEndian CNone 1 4)) /\
  writesFile B (pcmW LittleEndian 2 2) (fun x => x) [0; 0] (VOC.vocUpdate (mkFmt 44100 TwosComp 16 2 LittleEndian CNone 1 4)) (VOC.vocInit (mkFmt 44100 TwosComp 16 2 LittleEndian CNone 1 4)) VOC.vocFirst 1024 tt ws
    (vocLayout (mkFmt 44100 TwosComp 16 2 LittleEndian CNone 1 4)) /\
  writesFile B (pcmW BigEndian 2 2) (fun x => x) [0; 0] (NIST.nistUpdate (mkFmt 16000 TwosComp 16 2 BigEndian CNone 1 4)) (NIST.nistInit (mkFmt 16000 TwosComp 16 2 BigEndian CNone 1 4)) NIST.nistFirst 1024 tt ws
    (nistLayout (mkFmt 16000 TwosComp 16 2 BigEndian CNone 1 4)) /\
  (let x := PropertiesAIFF.exExtra 5 [88; 89; 90] in
   writesFile B (pcmW BigEndian 2 2) (fun x => x) [0; 0] (AIFF.aiffUpdate true (mkFmt PropertiesAIFF.ex44100 TwosComp 12 2 BigEndian CNone 1 4) x) (AIFF.aiffInit true (mkFmt PropertiesAIFF.ex44100 TwosComp 12 2 BigEndian CNone 1 4) x)
     (AIFF.aiffFirst true (mkFmt PropertiesAIFF.ex44100 TwosComp 12 2 BigEndian CNone 1 4) x) 1024 tt ws (aiffLayout true false (Z.to_pos (44100 * 2 ^ 37)) (-37) (mkFmt PropertiesAIFF.ex44100 TwosComp 12 2 BigEndian CNone 1 4) x)) /\
  (exists fb, let x := WAVE.WExtra [(203, [65; 66; 67])] [WAVE.WMarker 4 7 [66] []] in let fm := mkFmt 22050 TwosComp 16 2 LittleEndian CAlaw 1 2 in WAVE.fmtBytes fm = Ok fb /\
   writesFile B (alawW 2) (fun x => x) [0; 0] (WAVE.waveUpdate fb fm x x) (WAVE.waveInit fb fm x) (WAVE.waveFirst fb fm x) 1024 tt ws (waveLayout fm x)).
Proof.
  intros B ws.
  assert (F : Forall (frameOf 2 (fun _ => True)) (map (fun x : list Z => x) (concat ws))) by (vm_compute; repeat constructor).
  assert (J : frameOf 2 (fun _ => True) [0; 0]) by (repeat constructor).
  assert (LB : library unit (pcmW BigEndian 2 2) (frameOf 2 (fun _ => True)) (fun _ => True)) by (eapply memoryless_library; constructor; lia).
  assert (LL : library unit (pcmW LittleEndian 2 2) (frameOf 2 (fun _ => True)) (fun _ => True)) by (eapply memoryless_library; constructor; lia).
  assert (LU : library unit (ulawW 2) (frameOf 2 (fun _ => True)) (fun _ => True)) by (eapply memoryless_library; constructor; lia).
  assert (LA : library unit (alawW 2) (frameOf 2 (fun _ => True)) (fun _ => True)) by (eapply memoryless_library; constructor; lia).
  split; [|split; [|split; [|split; [|split; [|split]]]]].
  - apply (C77_caf_layout B LittleEndian PropertiesAIFF.ex44100 _ ltac:(apply (PropertiesCAF.CF_pcm LittleEndian _ _ BigEndian true 2); apply (PropertiesCAF.CP_int _ _ _ _ _ 16 2); reflexivity || lia) ltac:(reflexivity) _ _ _ _ LB); auto; try (cbn; lia); try (split; reflexivity).
  - apply (C77_next_layout B LittleEndian 8000 _ ltac:(apply (NX_g711 _ _ _ CUlaw 2); auto) _ _ _ _ LU); auto; try (cbn; lia); try (split; reflexivity); try (vm_compute; discriminate).
  - apply (C77_avr_layout B TwosComp 2 2 44100 (repeat 65 8) ltac:(constructor) ltac:(auto) ltac:(lia) ltac:(reflexivity) _ _ _ _ LB); auto; try (cbn; lia); try (split; reflexivity).
  - apply (C77_voc_layout B LittleEndian 44100 2 _ ltac:(apply (VF_pcm _ _ _ _ TwosComp 2); [constructor|reflexivity]) ltac:(lia) _ _ _ _ LL); auto; try (cbn; lia); try (split; reflexivity); try (vm_compute; reflexivity).
  - apply (C77_nist_layout B LittleEndian 16000 2 _ ltac:(apply (PropertiesNIST.NF_pcm _ _ _ _ 16 BigEndian); [reflexivity|lia]) ltac:(lia) ltac:(lia) ltac:(lia) _ _ _ _ LB); auto; try (cbn; lia); try (split; reflexivity); try (vm_compute; reflexivity).
  - assert (V : PropertiesAIFF.validExtra (PropertiesAIFF.exExtra 5 [88; 89; 90])).
    { unfold PropertiesAIFF.validExtra, PropertiesAIFF.exExtra. cbn [AIFF.ax_marks AIFF.ax_inst AIFF.ax_aes AIFF.ax_misc]. split.
      { repeat constructor; cbn; try lia. }
      split; [reflexivity|]. split; [unfold PropertiesAIFF.validInst, PropertiesAIFF.exInst; cbn; lia|]. split; [intros d [= <-]; reflexivity|]. repeat constructor; cbn [fst]; lia. }
    apply (C77_aiff_layout_partial B LittleEndian true false (Z.to_pos (44100 * 2 ^ 37)) (-37) _ ltac:(apply (PropertiesAIFF.AF_int LittleEndian _ true 12 2); lia) ltac:(reflexivity) _ _ V V ltac:(repeat split) _ _ _ _ LB); auto; try (cbn; lia); try (split; reflexivity); try (vm_compute; reflexivity).
  - eexists. cbv zeta. split; [vm_compute; reflexivity|].
    assert (V : PropertiesWAVE.validExtra (WAVE.WExtra [(203, [65; 66; 67])] [WAVE.WMarker 4 7 [66] []])).
    { split; [repeat constructor; discriminate|]. split; [repeat constructor; cbn; try lia|]. repeat constructor. intros []. }
    apply (C77_wave_layout_partial B LittleEndian _ _ ltac:(apply (PropertiesWAVE.WF_g711 LittleEndian _ CAlaw 2 22050); auto; lia) ltac:(vm_compute; reflexivity) _ _ V V ltac:(repeat split) _ _ _ _ LA); auto; try (cbn; lia); try (split; reflexivity).
Qed.
