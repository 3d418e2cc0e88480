(** * C61, second part: chunk files of other programs (AIFF, AIFF-C, WAVE) *)
From Verif Require Import Prelude PreludeFacts ByteOrder FileIO Reader Writer Codecs IMAProofs HeaderIO FileRoundTrip Chunks Float FloatBits Extended.
From Verif Require Import PropertiesIdentify PropertiesForeign.
From Verif Require AIFF PropertiesAIFF WAVE PropertiesWAVE.

(** A chunk: tag, size, contents with the pad byte. *)
Notation chunkT := (list Z * Z * list Z)%type.
Definition wellFormed (c : chunkT) : Prop := let '(tag, n, content) := c in zlen tag = 4 /\ 0 <= n /\ zlen content = n + n mod 2.
Definition tagOf (c : chunkT) : list Z := fst (fst c).
(** Chunks whose tag is not one of [known]. *)
Definition unknownTo (known : list (list Z)) (c : chunkT) : Prop := wellFormed c /\ ~ In (tagOf c) known.

Lemma chunksBytes_cons o tag n content l : chunksBytes o ((tag, n, content) :: l) = tag ++ sampleBytes o 4 n ++ content ++ chunksBytes o l.
Proof. unfold chunksBytes. cbn [map concat]. rewrite <- !app_assoc. reflexivity. Qed.
Lemma chunksBytes_len o tag n content l : zlen tag = 4 -> zlen content = n + n mod 2 -> zlen (chunksBytes o ((tag, n, content) :: l)) = 8 + n + n mod 2 + zlen (chunksBytes o l).
Proof. intros Lt Lc. rewrite chunksBytes_cons, !zlen_app, sampleBytes_zlen, Lt, Lc. change (Z.of_nat 4) with 4. lia. Qed.

(** Like [chunkLoop_chunks], up to the end of the file. *)
Lemma chunkLoop_upto {S} o wrap (body : S -> list Z -> Z -> hP S) size b rest : (forall x, 0 <= x < 2 ^ 32 -> wrap x = x) ->
  forall l s s' fuel index, handlesAll body s l s' -> 0 <= index -> index mod 2 = 0 -> index + zlen (chunksBytes o l) <= size -> size <= 2 ^ 32 - 32 ->
  zskipn (index + 8) b = chunksBytes o l ++ rest ->
  chunkLoop o wrap body (length l + fuel) size index s (mkFile b (index + 8))
  = chunkLoop o wrap body fuel size (index + zlen (chunksBytes o l)) s' (mkFile b (index + zlen (chunksBytes o l) + 8))
  /\ zskipn (index + zlen (chunksBytes o l) + 8) b = rest /\ (index + zlen (chunksBytes o l)) mod 2 = 0.
Proof.
  intros Hw l. change (2 ^ 32) with 4294967296 in *. induction l as [|[[tag n] content] l IH]; intros s s' fuel index HA Hi He Hs Hsz H.
  - inversion HA; subst. cbn in *. change (zlen []) with 0. rewrite !Z.add_0_r in *. auto.
  - inversion HA as [|? ? ? ? ? ? ? Lt Hn Lc Hh HA']; subst.
    pose proof (chunksBytes_len o tag n content l Lt Lc) as El. rewrite El in *. rewrite chunksBytes_cons, <- !app_assoc in H. pose proof (zlen_nonneg (chunksBytes o l)) as Zl.
    assert (Hn2 : 0 <= n mod 2 < 2) by (apply Z.mod_pos_bound; lia).
    assert (H16 : zskipn (index + 16) b = content ++ chunksBytes o l ++ rest).
    { pose proof H as H'. apply skip_field in H'; [|lia]. rewrite Lt in H'. apply skip_sample in H'; [|lia]. change (Z.of_nat 4) with 4 in H'. replace (index + 8 + 4 + 4) with (index + 16) in H' by lia. exact H'. }
    destruct (Hh b (index + 16) _ ltac:(lia) H16) as (f' & Eb & Ef).
    destruct (chunkLoop_step o wrap body (length l + fuel) size index s b tag n content (chunksBytes o l ++ rest) s'0 f' ltac:(lia) He Lt Hn ltac:(change (2 ^ 32) with 4294967296; lia)
      ltac:(intros x Hx; apply Hw; exact Hx) H Lc Eb Ef) as (E1 & E2 & E3).
    cbn [length Nat.add]. rewrite E1. replace (index + (8 + n + n mod 2 + zlen (chunksBytes o l))) with (index + 8 + n + n mod 2 + zlen (chunksBytes o l)) by lia.
    apply (IH s'0 s' fuel (index + 8 + n + n mod 2)); auto; lia.
Qed.

(** A file of chunks with one chunk whose effect depends on its position ([tag]). *)
Lemma chunkLoop_file {S} o wrap (body : S -> list Z -> Z -> hP S) size b l1 tag n content l2 s s1 s2 s3 f' fuel : (forall x, 0 <= x < 2 ^ 32 -> wrap x = x) ->
  handlesAll body s l1 s1 -> zlen tag = 4 -> 0 <= n -> zlen content = n + n mod 2 ->
  body s1 tag n (mkFile b (20 + zlen (chunksBytes o l1))) = Ok (Some (s2, f')) -> fbytes f' = b -> handlesAll body s2 l2 s3 ->
  zskipn 12 b = chunksBytes o (l1 ++ (tag, n, content) :: l2) ->
  size = 4 + zlen (chunksBytes o (l1 ++ (tag, n, content) :: l2)) -> size <= 2 ^ 32 - 32 -> (length l1 + 1 + length l2 <= fuel)%nat ->
  exists f'', chunkLoop o wrap body fuel size 4 s (mkFile b 12) = Ok (Some (s3, f'')).
Proof.
  intros Hw H1 Lt Hn Lc Hb Hf H2 H Esz Hsz Hfu. change (2 ^ 32) with 4294967296 in *.
  rewrite chunksBytes_app, zlen_app, (chunksBytes_len o tag n content l2 Lt Lc) in Esz. rewrite chunksBytes_app, chunksBytes_cons in H.
  pose proof (zlen_nonneg (chunksBytes o l1)) as Z1. pose proof (zlen_nonneg (chunksBytes o l2)) as Z2. assert (Hn2 : 0 <= n mod 2 < 2) by (apply Z.mod_pos_bound; lia).
  destruct (chunkLoop_upto o wrap body size b _ Hw l1 s s1 (1 + (length l2 + (fuel - length l1 - 1 - length l2)))%nat 4 H1 ltac:(lia) eq_refl ltac:(lia) ltac:(lia) H) as (E1 & E2 & E3).
  replace fuel with (length l1 + (1 + (length l2 + (fuel - length l1 - 1 - length l2))))%nat by lia. change 12 with (4 + 8). rewrite E1. clear E1 H.
  set (i := 4 + zlen (chunksBytes o l1)) in *. replace (20 + zlen (chunksBytes o l1)) with (i + 16) in Hb by (unfold i; lia).
  destruct (chunkLoop_step o wrap body (length l2 + (fuel - length l1 - 1 - length l2)) size i s1 b tag n content (chunksBytes o l2) s2 f' ltac:(lia) E3 Lt Hn ltac:(change (2 ^ 32) with 4294967296; lia)
      ltac:(intros x Hx; apply Hw; exact Hx) E2 Lc Hb Hf) as (F1 & F2 & F3).
  change (1 + ?k)%nat with (Datatypes.S k) in *. rewrite F1. clear F1.
  destruct (chunkLoop_upto o wrap body size b [] Hw l2 s2 s3 (fuel - length l1 - 1 - length l2)%nat (i + 8 + n + n mod 2) H2 ltac:(lia) F3 ltac:(lia) ltac:(lia) ltac:(rewrite app_nil_r; exact F2)) as (G1 & _ & _).
  rewrite G1. destruct (fuel - length l1 - 1 - length l2)%nat; cbn [chunkLoop]; replace (i + 8 + n + n mod 2 + zlen (chunksBytes o l2) <? size) with false by lia; cbn [negb]; eexists; reflexivity.
Qed.

Lemma handles_skipped {S} (body : S -> list Z -> Z -> hP S) known : (forall s tag n f, ~ In tag known -> body s tag n f = Ok (Some (s, f))) ->
  forall l s, Forall (unknownTo known) l -> handlesAll body s l s.
Proof.
  intros Hk l. induction l as [|[[tag n] content] l IH]; intros s H; [constructor|]. apply Forall_cons_iff in H. destruct H as [[(Lt & Hn & Lc) Hu] Hl].
  econstructor; [exact Lt|exact Hn|exact Lc| |apply IH; exact Hl]. intros b p rest Hp H. rewrite Hk by exact Hu. eexists. split; reflexivity.
Qed.
Lemma teq_not tag t : tag <> t -> teq tag t = false.
Proof. intros H. destruct (teq tag t) eqn:E; [apply teq_iff in E; contradiction|reflexivity]. Qed.

(** ** AIFF and AIFF-C *)
Definition aiffKnown : list (list Z) := 
  [AIFF.T_COMM; AIFF.T_FVER; AIFF.T_INST; AIFF.T_MARK; AIFF.T_AESD; AIFF.T_NAME; AIFF.T_AUTH; AIFF.T_COPY; AIFF.T_ANNO; AIFF.T_APPL; AIFF.T_MIDI; AIFF.T_SSND].
Lemma aiff_skips {B : Build} aifc host s tag n f : ~ In tag aiffKnown -> AIFF.aiffChunk aifc host s tag n f = Ok (Some (s, f)).
Proof.
  intros H. unfold aiffKnown in H. cbn [In] in H. unfold AIFF.aiffChunk, AIFF.tagMisc.
  rewrite !teq_not by (intros ->; apply H; tauto). reflexivity.
Qed.

(** Compression types: the type, the sample width in the header, sample format, width, byte order, compression, frames per packet,
    bytes per packet and channel. *)
Inductive aifcType (host : order) : list Z -> Z -> sampfmt -> Z -> order -> compression -> Z -> Z -> Prop :=
| AT_none w : 1 <= w <= 32 -> aifcType host [78;79;78;69] w TwosComp w BigEndian CNone 1 ((w + 7) / 8)            (* NONE *)
| AT_twos w : 1 <= w <= 32 -> aifcType host [116;119;111;115] w TwosComp w BigEndian CNone 1 ((w + 7) / 8)        (* twos *)
| AT_sowt w : 1 <= w <= 32 -> aifcType host [115;111;119;116] w TwosComp w LittleEndian CNone 1 ((w + 7) / 8)     (* sowt *)
| AT_in24 w : aifcType host [105;110;50;52] w TwosComp 24 BigEndian CNone 1 3                                     (* in24 *)
| AT_in32 w : aifcType host [105;110;51;50] w TwosComp 32 BigEndian CNone 1 4                                     (* in32 *)
| AT_fl32 w : aifcType host [102;108;51;50] w Float 32 BigEndian CNone 1 4                                        (* fl32 *)
| AT_FL32 w : aifcType host [70;76;51;50] w Float 32 BigEndian CNone 1 4                                          (* FL32 *)
| AT_fl64 w : aifcType host [102;108;54;52] w Double 64 BigEndian CNone 1 8                                       (* fl64 *)
| AT_FL64 w : aifcType host [70;76;54;52] w Double 64 BigEndian CNone 1 8                                         (* FL64 *)
| AT_ulaw w : aifcType host [117;108;97;119] w TwosComp 16 host CUlaw 1 1                                         (* ulaw *)
| AT_ULAW w : aifcType host [85;76;65;87] w TwosComp 16 host CUlaw 1 1                                            (* ULAW *)
| AT_alaw w : aifcType host [97;108;97;119] w TwosComp 16 host CAlaw 1 1                                          (* alaw *)
| AT_ALAW w : aifcType host [65;76;65;87] w TwosComp 16 host CAlaw 1 1                                            (* ALAW *)
| AT_ima4 w : aifcType host [105;109;97;52] w TwosComp 16 host CIMA 64 34.                                        (* ima4 *)

(** The common chunk. *)
Definition comm (ch frames width : Z) (ext : list Z) (more : list Z) : chunkT :=
  (AIFF.T_COMM, 18 + zlen more, sampleBytes BigEndian 2 ch ++ sampleBytes BigEndian 4 frames ++ sampleBytes BigEndian 2 width ++ ext ++ more).

Lemma comm_wf ch frames width ext more : zlen ext = 10 -> zlen more mod 2 = 0 -> wellFormed (comm ch frames width ext more).
Proof.
  intros L1 L2. unfold comm, wellFormed. pose proof (zlen_nonneg more). split; [reflexivity|]. split; [lia|]. rewrite !zlen_app, !sampleBytes_zlen, L1. change (Z.of_nat 2) with 2. change (Z.of_nat 4) with 4. lia.
Qed.

Lemma commAIFC_type host s id w sf w' o c fpp k ch frames rate name f : aifcType host id w sf w' o c fpp k -> 0 < ch < 65536 -> 
  AIFF.commAIFC host s ch frames w rate id (Some name) f = Ok (Some (AIFF.withFmt s (mkFmt rate sf w' ch o c fpp (k * ch)) (frames * fpp), f)).
Proof.
  intros Ht Hc. unfold AIFF.commAIFC.
  assert (P : forall sf w o k, w <= 64 -> (w + 7) / 8 = k -> match sf with TwosComp | Unsigned => 1 <= w <= 32 | Float => w = 32 | Double => w = 64 end ->
     AIFF.commPCM s rate sf w ch o frames f = Ok (Some (AIFF.withFmt s (mkFmt rate sf w ch o CNone 1 (k * ch)) frames, f))).
  { clear - Hc. intros. subst. assert (1 <= w) by (destruct sf; lia). unfold AIFF.commPCM, hbind, hlift. assert (1 <= (w + 7) / 8 <= 8) by lia. assert ((w + 7) / 8 * ch <= 8 * 65536) by nia.
    rewrite bppPCM_ok by (try (change (2 ^ 31) with 2147483648); lia). cbn [rbind].
    unfold AIFF.commDone. destruct sf; try (replace ((w <? 1) || (32 <? w)) with false by lia); try (replace w with 32 by lia; reflexivity); try (replace w with 64 by lia; reflexivity); reflexivity. }
  destruct Ht; repeat match goal with |- context [teq ?a ?b] => let v := eval vm_compute in (teq a b) in change (teq a b) with v end; cbn [orb]; cbv iota; rewrite ?Z.mul_1_r, ?Z.mul_1_l;
    try (apply P; try lia; reflexivity); unfold AIFF.commDone; cbn [orb Z.ltb Z.compare]; reflexivity.
Qed.

Lemma comm_aifc_handles {B : Build} host s ch frames w ext rate id name sf w' o c fpp k n : aifcType host id w sf w' o c fpp k ->
  0 < ch < 65536 -> 0 <= frames < 2 ^ 32 -> 0 <= w < 65536 -> zlen ext = 10 -> fromExtended ext = Ok rate -> zlen name <= 255 ->
  handles (AIFF.aiffChunk true host) s AIFF.T_COMM n (snd (comm ch frames w ext (id ++ AIFF.pstring name))) (AIFF.withFmt s (mkFmt rate sf w' ch o c fpp (k * ch)) (frames * fpp)).
Proof.
  intros Ht Hc Hfr Hw Le Er Ln b p rest Hp H. change (2 ^ 32) with 4294967296 in *. unfold AIFF.aiffChunk. change (teq AIFF.T_COMM AIFF.T_COMM) with true. cbv iota.
  unfold comm in H. cbn [snd] in H. rewrite <- !app_assoc in H. unfold AIFF.parseCOMM.
  hstep H. change (8 * Z.of_nat 2) with 16. change (2 ^ 16) with 65536. rewrite (Z.mod_small ch) by lia. replace (ch =? 0) with false by lia.
  hstep H. change (8 * Z.of_nat 4) with 32. change (2 ^ 32) with 4294967296. rewrite (Z.mod_small frames) by lia.
  hstep H. change (8 * Z.of_nat 2) with 16. change (2 ^ 16) with 65536. rewrite (Z.mod_small w) by lia.
  hfield H 10; [exact Le|]. rewrite (st_lift _ rate) by exact Er.
  hfield H 4; [destruct Ht; reflexivity|]. change (Z.of_nat 2) with 2 in *. change (Z.of_nat 4) with 4 in *.
  match type of H with zskipn ?q _ = _ => destruct (PropertiesAIFF.readPString_field b q _ _ Ln ltac:(lia) H) as (f' & E & Ef) end.
  unfold hbind at 1. rewrite E. cbn [rbind]. rewrite (commAIFC_type host s id w sf w' o c fpp k) by assumption. eexists. split; [reflexivity|exact Ef].
Qed.
Lemma comm_aiff_handles {B : Build} host s ch frames w ext rate n : 1 <= w <= 32 ->
  0 < ch < 65536 -> 0 <= frames < 2 ^ 32 -> zlen ext = 10 -> fromExtended ext = Ok rate ->
  handles (AIFF.aiffChunk false host) s AIFF.T_COMM n (snd (comm ch frames w ext [])) (AIFF.withFmt s (mkFmt rate TwosComp w ch BigEndian CNone 1 ((w + 7) / 8 * ch)) frames).
Proof.
  intros Hw Hc Hfr Le Er b p rest Hp H. change (2 ^ 32) with 4294967296 in *. unfold AIFF.aiffChunk. change (teq AIFF.T_COMM AIFF.T_COMM) with true. cbv iota.
  unfold comm in H. cbn [snd] in H. rewrite <- !app_assoc in H. unfold AIFF.parseCOMM.
  hstep H. change (8 * Z.of_nat 2) with 16. change (2 ^ 16) with 65536. rewrite (Z.mod_small ch) by lia. replace (ch =? 0) with false by lia.
  hstep H. change (8 * Z.of_nat 4) with 32. change (2 ^ 32) with 4294967296. rewrite (Z.mod_small frames) by lia.
  hstep H. change (8 * Z.of_nat 2) with 16. change (2 ^ 16) with 65536. rewrite (Z.mod_small w) by lia.
  hfield H 10; [exact Le|]. rewrite (st_lift _ rate) by exact Er.
  assert (1 <= (w + 7) / 8 <= 4) by lia. assert ((w + 7) / 8 * ch <= 8 * 65536) by nia.
  unfold AIFF.commPCM, hbind, hlift. rewrite bppPCM_ok by (try (change (2 ^ 31) with 2147483648); lia). cbn [rbind].
  unfold AIFF.commDone. replace ((w <? 1) || (32 <? w)) with false by lia. eexists. split; reflexivity.
Qed.

(** The sound chunk: the data starts after [gap]. *)
Definition ssnd (gap : list Z) (block : Z) (data : list Z) : chunkT :=
  let n := 8 + zlen gap + zlen data in
  (AIFF.T_SSND, n, sampleBytes BigEndian 4 (zlen gap) ++ sampleBytes BigEndian 4 block ++ gap ++ data ++ (if n mod 2 =? 0 then [] else [0])).
Definition aiffFile (aifc : bool) (l : list chunkT) : list Z :=
  AIFF.T_FORM ++ sampleBytes BigEndian 4 (4 + zlen (chunksBytes BigEndian l)) ++ (if aifc then AIFF.T_AIFC else AIFF.T_AIFF) ++ chunksBytes BigEndian l.

Lemma padded_len (n : Z) (x : list Z) : zlen x = n -> zlen (x ++ (if n mod 2 =? 0 then [] else [0])) = n + n mod 2.
Proof. intros L. rewrite zlen_app, L. destruct (n mod 2 =? 0) eqn:E; [change (zlen []) with 0|change (zlen [0]) with 1]; lia. Qed.

Lemma aiff_layout {B : Build} aifc host before gap block data after c s1 s3 fuel :
  (forall s, handles (AIFF.aiffChunk aifc host) s (tagOf c) (snd (fst c)) (snd c) (s1 s)) -> wellFormed c ->
  (forall s, AIFF.as_ssnd (s1 s) = AIFF.as_ssnd s) -> 
  (exists l1 l2, before ++ after = l1 ++ c :: l2 /\ Forall (unknownTo aiffKnown) (l1 ++ l2)) ->
  let l := before ++ ssnd gap block data :: after in
  let first := 28 + zlen (chunksBytes BigEndian before) + zlen gap in
  zlen (chunksBytes BigEndian l) <= 2 ^ 32 - 36 -> (length l <= fuel)%nat ->
  (forall s, (let g := AIFF.AiffSt (AIFF.as_fmt s) (AIFF.as_total s) true first (zlen data) (AIFF.as_marks s) (AIFF.as_inst s) (AIFF.as_aes s) (AIFF.as_misc s) in
     (s = s1 AIFF.aiffSt0 -> s3 = g) /\ (s = AIFF.aiffSt0 -> s3 = s1 g))) ->
  exists f', AIFF.aiffRead aifc host fuel (mkFile (aiffFile aifc l) 0) = Ok (Some (s3, f')).
Proof.
  intros Hc Wc Hss Hex l first Hl Hfu H3. change (2 ^ 32) with 4294967296 in *. pose proof (zlen_nonneg gap) as Zg. pose proof (zlen_nonneg data) as Zd. pose proof (zlen_nonneg (chunksBytes BigEndian before)) as Zb.
  set (n := 8 + zlen gap + zlen data). set (content := sampleBytes BigEndian 4 (zlen gap) ++ sampleBytes BigEndian 4 block ++ gap ++ data ++ (if n mod 2 =? 0 then [] else [0])).
  assert (Ls : zlen content = n + n mod 2).
  { unfold content. rewrite (app_assoc gap), (app_assoc (sampleBytes _ _ block)), (app_assoc (sampleBytes _ _ (zlen gap))). apply padded_len. rewrite !zlen_app, !sampleBytes_zlen. unfold n. change (Z.of_nat 4) with 4. lia. }
  set (b := aiffFile aifc l).
  assert (H : zskipn 0 b = AIFF.T_FORM ++ sampleBytes BigEndian 4 (4 + zlen (chunksBytes BigEndian l)) ++ (if aifc then AIFF.T_AIFC else AIFF.T_AIFF) ++ chunksBytes BigEndian l) by (rewrite zskipn_0 by lia; reflexivity).
  clearbody b. unfold AIFF.aiffRead. rewrite st_seek. cbn [fbytes]. hfield H 4; [reflexivity|]. change (0 + 4) with 4 in *. hstep H. change (4 + Z.of_nat 4) with 8 in *.
  hfield H 4; [destruct aifc; reflexivity|]. change (8 + 4) with 12 in *.
  assert (Ef : negb (teq AIFF.T_FORM AIFF.T_FORM) || negb (teq (if aifc then AIFF.T_AIFC else AIFF.T_AIFF) AIFF.T_AIFF || teq (if aifc then AIFF.T_AIFC else AIFF.T_AIFF) AIFF.T_AIFC) = false) by (destruct aifc; reflexivity).
  rewrite Ef. clear Ef. pose proof (zlen_nonneg (chunksBytes BigEndian l)) as Zl.
  change (8 * Z.of_nat 4) with 32. change (2 ^ 32) with 4294967296. rewrite (Z.mod_small (4 + zlen (chunksBytes BigEndian l))) by lia.
  assert (W : forall v, 0 <= v < 2 ^ 32 -> u64 v = v) by (intros v Hv; unfold u64; apply uN_small; change (2 ^ 32) with 4294967296 in Hv; change (2 ^ 64) with 18446744073709551616; lia).
  assert (Hn : n < 4294967296).
  { unfold l in Hl. rewrite chunksBytes_app, zlen_app in Hl. change (ssnd gap block data) with (AIFF.T_SSND, n, content) in Hl. rewrite chunksBytes_len in Hl by (auto; reflexivity).
    pose proof (zlen_nonneg (chunksBytes BigEndian after)). assert (0 <= n mod 2 < 2) by (apply Z.mod_pos_bound; lia). lia. }
  assert (SK : forall l s, Forall (unknownTo aiffKnown) l -> handlesAll (AIFF.aiffChunk aifc host) s l s) by (apply handles_skipped; intros; now apply aiff_skips).
  assert (CK : forall l1 l2 s, Forall (unknownTo aiffKnown) l1 -> Forall (unknownTo aiffKnown) l2 -> handlesAll (AIFF.aiffChunk aifc host) s (l1 ++ c :: l2) (s1 s)).
  { intros l1 l2 s U1 U2. apply handlesAll_app with (s' := s); [apply SK; exact U1|]. destruct c as [[ct cn] cc]. destruct Wc as (Lt & H0 & Lc). econstructor; [exact Lt|exact H0|exact Lc|apply Hc|apply SK; exact U2]. }
  (* what comes before and after the sound chunk *)
  assert (BA : exists sb, handlesAll (AIFF.aiffChunk aifc host) AIFF.aiffSt0 before sb /\ AIFF.as_ssnd sb = false /\
     handlesAll (AIFF.aiffChunk aifc host) (AIFF.AiffSt (AIFF.as_fmt sb) (AIFF.as_total sb) true first (zlen data) (AIFF.as_marks sb) (AIFF.as_inst sb) (AIFF.as_aes sb) (AIFF.as_misc sb)) after s3).
  { destruct Hex as (l1 & l2 & E & U). apply Forall_app in U. destruct U as [U1 U2].
    apply app_eq_app in E. destruct E as (m & [[E1 E2]|[E1 E2]]).
    - (* before = l1 ++ m *) destruct m as [|c' m].
      + exists AIFF.aiffSt0. rewrite app_nil_r in E1. subst before. cbn [app] in E2. subst after. split; [apply SK; exact U1|]. split; [reflexivity|].
        destruct (H3 AIFF.aiffSt0) as [_ K]. cbv zeta in K. specialize (K eq_refl). subst s3. apply (CK [] l2); [constructor|exact U2].
      + cbn [app] in E2. injection E2 as <- E2. exists (s1 AIFF.aiffSt0). subst before l2. apply Forall_app in U2. destruct U2 as [U2 U3].
        split; [apply CK; assumption|]. split; [rewrite Hss; reflexivity|]. destruct (H3 (s1 AIFF.aiffSt0)) as [K _]. cbv zeta in K. specialize (K eq_refl). subst s3. apply SK. exact U3.
    - (* l1 = before ++ m *) exists AIFF.aiffSt0. subst l1. apply Forall_app in U1. destruct U1 as [U0 U1]. split; [apply SK; exact U0|]. split; [reflexivity|].
      destruct (H3 AIFF.aiffSt0) as [_ K]. cbv zeta in K. specialize (K eq_refl). subst s3 after. apply CK; assumption. }
  destruct BA as (sb & HB & Hsb & HA).
  assert (Hn0 : 0 <= n) by (unfold n; lia).
  assert (E20 : zskipn (20 + zlen (chunksBytes BigEndian before)) b = sampleBytes BigEndian 4 (zlen gap) ++ sampleBytes BigEndian 4 block ++ (gap ++ data ++ (if n mod 2 =? 0 then [] else [0])) ++ chunksBytes BigEndian after).
  { unfold l in H. rewrite chunksBytes_app in H. apply skip_field in H; [|lia]. change (ssnd gap block data) with (AIFF.T_SSND, n, content) in H. rewrite chunksBytes_cons in H.
    apply skip_field in H; [|lia]. change (zlen AIFF.T_SSND) with 4 in H. apply skip_sample in H; [|lia]. change (Z.of_nat 4) with 4 in H.
    replace (12 + zlen (chunksBytes BigEndian before) + 4 + 4) with (20 + zlen (chunksBytes BigEndian before)) in H by lia. rewrite H. unfold content. rewrite <- !app_assoc. reflexivity. }
  assert (SS : exists f', AIFF.aiffChunk aifc host sb AIFF.T_SSND n (mkFile b (20 + zlen (chunksBytes BigEndian before))) =
     Ok (Some (AIFF.AiffSt (AIFF.as_fmt sb) (AIFF.as_total sb) true first (zlen data) (AIFF.as_marks sb) (AIFF.as_inst sb) (AIFF.as_aes sb) (AIFF.as_misc sb), f')) /\ fbytes f' = b).
  { unfold AIFF.aiffChunk. repeat match goal with |- context [teq ?a ?b] => let v := eval vm_compute in (teq a b) in change (teq a b) with v end.
    change (AIFF.tagMisc AIFF.T_SSND) with (@None Z). cbv iota. rewrite Hsb. unfold AIFF.parseSSND. do 2 hstep E20. rewrite st_tell. cbn [fpos].
    change (8 * Z.of_nat 4) with 32. change (2 ^ 32) with 4294967296. change (Z.of_nat 4) with 4. rewrite (Z.mod_small (zlen gap)) by (unfold n in Hn; lia). unfold hret.
    replace (20 + zlen (chunksBytes BigEndian before) + 4 + 4 + zlen gap) with first by (unfold first; lia).
    replace (n - 8 - zlen gap) with (zlen data) by (unfold n; lia). unfold u64, s64. rewrite uN_small by (change (2 ^ 64) with 18446744073709551616; lia).
    rewrite sN_small by (try (change (2 ^ (64 - 1)) with 9223372036854775808); lia). eexists. split; reflexivity. }
  destruct SS as (fs & SS & Efs).
  unfold l in *. rewrite app_length in Hfu. cbn [length] in Hfu.
  exact (chunkLoop_file BigEndian u64 (AIFF.aiffChunk aifc host) (4 + zlen (chunksBytes BigEndian (before ++ ssnd gap block data :: after))) b before AIFF.T_SSND n content after _ _ _ _ fs fuel W HB
    eq_refl Hn0 Ls SS Efs HA H eq_refl ltac:(change (2 ^ 32) with 4294967296; lia) ltac:(lia)).
Qed.

(** A common chunk and a sound chunk in either order, among chunks the library does not know; AIFF-C with every compression type it reads. *)
Theorem C61_aifc_types :
  forall (B : Build) host id width sf w o c fpp k ch frames ext rate name gap block data before after fuel,
    aifcType host id width sf w o c fpp k -> 0 < ch < 2 ^ 16 -> 0 <= frames < 2 ^ 32 -> 0 <= width < 2 ^ 16 -> zlen ext = 10 -> fromExtended ext = Ok rate -> zlen name <= 255 ->
    let common := comm ch frames width ext (id ++ AIFF.pstring name) in
    (exists l1 l2, before ++ after = l1 ++ common :: l2 /\ Forall (unknownTo aiffKnown) (l1 ++ l2)) ->
    let l := before ++ ssnd gap block data :: after in
    zlen (chunksBytes BigEndian l) <= 2 ^ 32 - 36 -> (length l <= fuel)%nat ->
    exists f', AIFF.aiffOpen true host fuel (mkFile (aiffFile true l) 0) =
      Ok (Some (mkParsed (mkFmt rate sf w ch o c fpp (k * ch)) (28 + zlen (chunksBytes BigEndian before) + zlen gap) (zlen data) (frames * fpp), f')).
Proof.
  intros B host id width sf w o c fpp k ch frames ext rate name gap block data before after fuel Ht Hc Hfr Hw Le Er Ln common Hex l Hl Hfu.
  change (2 ^ 16) with 65536 in *.
  assert (Lp : zlen (AIFF.pstring name) mod 2 = 0).
  { unfold AIFF.pstring. replace (255 <? zlen name) with false by lia. rewrite zlen_cons, zlen_app. destruct (zlen name mod 2 =? 0) eqn:E; [change (zlen [0]) with 1|change (zlen []) with 0]; lia. }
  assert (Wc : wellFormed common). { apply comm_wf; [exact Le|]. rewrite zlen_app. replace (zlen id) with 4 by (destruct Ht; reflexivity). lia. }
  set (fm := mkFmt rate sf w ch o c fpp (k * ch)).
  destruct (aiff_layout true host before gap block data after common (fun s => AIFF.withFmt s fm (frames * fpp))
    (AIFF.AiffSt (Some fm) (frames * fpp) true (28 + zlen (chunksBytes BigEndian before) + zlen gap) (zlen data) [] None None []) fuel
    (fun s => comm_aifc_handles host s ch frames width ext rate id name sf w o c fpp k _ Ht Hc Hfr Hw Le Er Ln) Wc (fun s => eq_refl) Hex Hl Hfu) as (f' & E).
  { intros s. split; intros ->; reflexivity. }
  unfold AIFF.aiffOpen, hbind. fold l in E. rewrite E. cbn [rbind]. eexists. reflexivity.
Qed.
Print Assumptions C61_aifc_types.

Theorem C61_aiff_chunks :
  forall (B : Build) host w ch frames ext rate gap block data before after fuel,
    1 <= w <= 32 -> 0 < ch < 2 ^ 16 -> 0 <= frames < 2 ^ 32 -> zlen ext = 10 -> fromExtended ext = Ok rate ->
    let common := comm ch frames w ext [] in
    (exists l1 l2, before ++ after = l1 ++ common :: l2 /\ Forall (unknownTo aiffKnown) (l1 ++ l2)) ->
    let l := before ++ ssnd gap block data :: after in
    zlen (chunksBytes BigEndian l) <= 2 ^ 32 - 36 -> (length l <= fuel)%nat ->
    exists f', AIFF.aiffOpen false host fuel (mkFile (aiffFile false l) 0) =
      Ok (Some (mkParsed (mkFmt rate TwosComp w ch BigEndian CNone 1 ((w + 7) / 8 * ch)) (28 + zlen (chunksBytes BigEndian before) + zlen gap) (zlen data) frames, f')).
Proof.
  intros B host w ch frames ext rate gap block data before after fuel Hw Hc Hfr Le Er common Hex l Hl Hfu.
  change (2 ^ 16) with 65536 in *.
  assert (Wc : wellFormed common) by (apply comm_wf; [exact Le|reflexivity]).
  set (fm := mkFmt rate TwosComp w ch BigEndian CNone 1 ((w + 7) / 8 * ch)).
  destruct (aiff_layout false host before gap block data after common (fun s => AIFF.withFmt s fm frames)
    (AIFF.AiffSt (Some fm) frames true (28 + zlen (chunksBytes BigEndian before) + zlen gap) (zlen data) [] None None []) fuel
    (fun s => comm_aiff_handles host s ch frames w ext rate _ Hw Hc Hfr Le Er) Wc (fun s => eq_refl) Hex Hl Hfu) as (f' & E).
  { intros s. split; intros ->; reflexivity. }
  unfold AIFF.aiffOpen, hbind. fold l in E. rewrite E. cbn [rbind]. eexists. reflexivity.
Qed.
Print Assumptions C61_aiff_chunks.
Example C61_aifc_example : (* sowt, the sound chunk before the common chunk, an unknown chunk between them *)
  let common := comm 2 3 16 [64;14;172;68;0;0;0;0;0;0] ([115;111;119;116] ++ AIFF.pstring []) in
  let odd := ([67;72;65;78], 3, [1;2;3;0]) : chunkT in
  exists rate f', AIFF.aiffOpen (B := true) true LittleEndian 3 (mkFile (aiffFile true [ssnd [7;7] 0 [1;0;2;0;3;0;4;0;5;0;6;0]; odd; common]) 0) =
      Ok (Some (mkParsed (mkFmt rate TwosComp 16 2 LittleEndian CNone 1 4) 30 12 3, f')).
Proof.
  cbv zeta. set (ext := [64;14;172;68;0;0;0;0;0;0]). destruct (fromExtended ext) as [rate| | |] eqn:Er; try (vm_compute in Er; discriminate Er).
  destruct (C61_aifc_types true LittleEndian [115;111;119;116] 16 _ _ _ _ _ _ 2 3 ext rate [] [7;7] 0 [1;0;2;0;3;0;4;0;5;0;6;0] [] [([67;72;65;78], 3, [1;2;3;0]); comm 2 3 16 ext ([115;111;119;116] ++ AIFF.pstring [])] 3
    (AT_sowt _ 16 ltac:(lia)) ltac:(lia) ltac:(lia) ltac:(lia) eq_refl Er ltac:(vm_compute; congruence)) as (f' & E).
  - exists [([67;72;65;78], 3, [1;2;3;0])], []. split; [reflexivity|]. repeat constructor; cbn; try lia. intuition discriminate.
  - vm_compute. congruence.
  - cbn. lia.
  - exists rate, f'. exact E.
Qed.

(** ** WAVE *)
Definition waveKnown : list (list Z) := [WAVE.T_fmt; WAVE.T_data; WAVE.T_fact; WAVE.T_cue; WAVE.T_LIST; WAVE.T_list; WAVE.T_plst].
Lemma wave_skips {B : Build} host s tag n f : ~ In tag waveKnown -> WAVE.waveChunk host s tag n f = Ok (Some (s, f)).
Proof.
  intros H. unfold waveKnown in H. cbn [In] in H. unfold WAVE.waveChunk.
  rewrite (teq_not tag WAVE.T_fmt), (teq_not tag WAVE.T_data), (teq_not tag WAVE.T_fact), (teq_not tag WAVE.T_cue), (teq_not tag WAVE.T_LIST), (teq_not tag WAVE.T_list), (teq_not tag WAVE.T_plst) by (intros ->; apply H; tauto).
  destruct (teq tag WAVE.T_inst), (teq tag WAVE.T_INST); reflexivity.
Qed.

Definition w2 := sampleBytes LittleEndian 2.
Definition w4 := sampleBytes LittleEndian 4.
(** The registered subformat identifiers of WAVEFORMATEXTENSIBLE: the format tag followed by fixed bytes. *)
Definition subformat (tag : Z) : list Z := [tag; 0; 0; 0; 0; 0; 0x10; 0; 0x80; 0; 0; 0xaa; 0; 0x38; 0x9b; 0x71].
(** Format tag, what follows the block size, sample format, width, byte order, compression, bytes per sample.  [more] is any extension
    the format tag does not need. *)
Inductive waveCode (host : order) : Z -> list Z -> sampfmt -> Z -> order -> compression -> Z -> Prop :=
| WC_pcm bits more : 1 <= bits <= 32 -> waveCode host 1 (w2 bits ++ more) (if bits <=? 8 then Unsigned else TwosComp) bits LittleEndian CNone ((bits + 7) / 8)
| WC_float more : waveCode host 3 (w2 32 ++ more) Float 32 LittleEndian CNone 4
| WC_double more : waveCode host 3 (w2 64 ++ more) Double 64 LittleEndian CNone 8
| WC_ulaw tag more : tag = 7 \/ tag = 0x101 -> waveCode host tag (w2 8 ++ more) TwosComp 16 host CUlaw 1
| WC_alaw tag more : tag = 6 \/ tag = 0x102 -> waveCode host tag (w2 8 ++ more) TwosComp 16 host CAlaw 1
| WC_ext_pcm bits valid mask : bits = 8 \/ bits = 16 \/ bits = 24 \/ bits = 32 -> bits - 8 < valid <= bits ->
    waveCode host 0xfffe (w2 bits ++ w2 22 ++ w2 valid ++ w4 mask ++ subformat 1) (if bits <=? 8 then Unsigned else TwosComp) valid LittleEndian CNone (bits / 8)
| WC_ext_float valid mask : waveCode host 0xfffe (w2 32 ++ w2 22 ++ w2 valid ++ w4 mask ++ subformat 3) Float 32 LittleEndian CNone 4
| WC_ext_double valid mask : waveCode host 0xfffe (w2 64 ++ w2 22 ++ w2 valid ++ w4 mask ++ subformat 3) Double 64 LittleEndian CNone 8
| WC_ext_alaw valid mask : waveCode host 0xfffe (w2 8 ++ w2 22 ++ w2 valid ++ w4 mask ++ subformat 6) TwosComp 16 host CAlaw 1
| WC_ext_ulaw valid mask : waveCode host 0xfffe (w2 8 ++ w2 22 ++ w2 valid ++ w4 mask ++ subformat 7) TwosComp 16 host CUlaw 1.

Definition fmtChunk (tag ch rate avg align : Z) (more : list Z) : chunkT :=
  (WAVE.T_fmt, 14 + zlen more, w2 tag ++ w2 ch ++ w4 rate ++ w4 avg ++ w2 align ++ more).
Definition factChunk (frames : Z) : chunkT := (WAVE.T_fact, 4, w4 frames).
Definition dataChunk (data : list Z) : chunkT := (WAVE.T_data, zlen data, data ++ (if zlen data mod 2 =? 0 then [] else [0])).
Definition waveFile (l : list chunkT) : list Z := WAVE.T_RIFF ++ w4 (4 + zlen (chunksBytes LittleEndian l)) ++ WAVE.T_WAVE ++ chunksBytes LittleEndian l.

Lemma fmt_code_handles {B : Build} host s tag ch rate avg align more sf w o c k n : waveCode host tag more sf w o c k ->
  0 < ch < 65536 -> 0 <= rate < 2 ^ 32 -> 0 <= align < 65536 ->
  handles (WAVE.waveChunk host) s WAVE.T_fmt n (snd (fmtChunk tag ch rate avg align more)) (WAVE.withFormat s (mkFmt rate sf w ch o c 1 (k * ch)) (WAVE.wv_coefs s)).
Proof.
  intros Hcode Hc Hr Ha b p rest Hp H. unfold WAVE.waveChunk. change (teq WAVE.T_fmt WAVE.T_fmt) with true. cbv iota. unfold fmtChunk in H. cbn [snd] in H. rewrite <- !app_assoc in H.
  assert (Ht : 0 <= tag < 2 ^ 16). { change (2 ^ 16) with 65536. destruct Hcode; lia. }
  destruct (PropertiesWAVE.fmt_front host s b p tag ch rate avg align (more ++ rest) Ht ltac:(change (2 ^ 16) with 65536; lia) Hr ltac:(change (2 ^ 16) with 65536; lia) Hp H) as (_ & E & H1).
  rewrite E. clear E H. rename H1 into H. set (q := p + 14) in *. assert (Hq : 0 <= q) by lia. clearbody q.
  assert (P : forall sf w k f, w <= 64 -> 1 <= w -> (w + 7) / 8 = k ->
     WAVE.fmtPCM s rate sf w ch f = Ok (Some (WAVE.withFormat s (mkFmt rate sf w ch LittleEndian CNone 1 (k * ch)) (WAVE.wv_coefs s), f))).
  { clear - Hc. intros. subst. unfold WAVE.fmtPCM, hbind, hlift. assert (1 <= (w + 7) / 8 <= 8) by lia. assert ((w + 7) / 8 * ch <= 8 * 65536) by nia.
    rewrite bppPCM_ok by (try (change (2 ^ 31) with 2147483648); lia). reflexivity. }
  unfold PropertiesWAVE.parseFormatTail.
  assert (M : forall x, 0 <= x < 65536 -> x mod 2 ^ (8 * Z.of_nat 2) = x) by (intros; apply Z.mod_small; exact H0).
  Ltac eqs := repeat match goal with |- context [?a =? ?b] => let v := eval vm_compute in (a =? b) in first [constr_eq v true|constr_eq v false]; change (a =? b) with v end; cbn [orb]; cbv iota.
  destruct Hcode as [bits more Hb|more|more|tag more Htag|tag more Htag|bits valid mask Hb Hv|valid mask|valid mask|valid mask|valid mask].
  - change (1 =? 1) with true. cbv iota. unfold w2 in H. rewrite <- app_assoc in H. hstep H. rewrite M by lia. replace ((bits =? 0) || (32 <? bits)) with false by lia.
    unfold WAVE.fmtInt. rewrite P with (k := (bits + 7) / 8) by lia. eexists. split; reflexivity.
  - eqs. unfold w2 in H. rewrite <- app_assoc in H. hstep H. change (32 mod 2 ^ (8 * Z.of_nat 2)) with 32. unfold WAVE.fmtFloat. change (32 =? 64) with false. cbv iota.
    rewrite P with (k := 4) by (try lia; reflexivity). eexists. split; reflexivity.
  - eqs. unfold w2 in H. rewrite <- app_assoc in H. hstep H. change (64 mod 2 ^ (8 * Z.of_nat 2)) with 64. unfold WAVE.fmtFloat. change (64 =? 64) with true. cbv iota.
    rewrite P with (k := 8) by (try lia; reflexivity). eexists. split; reflexivity.
  - rewrite Z.mul_1_l. destruct Htag as [-> | ->]; eqs; eexists; split; reflexivity.
  - rewrite Z.mul_1_l. destruct Htag as [-> | ->]; eqs; eexists; split; reflexivity.
  - eqs. unfold w2, w4 in H. rewrite <- !app_assoc in H. unfold WAVE.fmtExt. do 4 hstep H. hfield H 16; [reflexivity|]. change (zlen (subformat 1)) with 16. change (negb (16 =? 16)) with false. cbv iota.
    change (teq (subformat 1) WAVE.G_pcm) with true. cbv iota. cbn [WAVE.present]. rewrite M by lia. rewrite st_ret. replace ((bits =? 0) || (32 <? bits)) with false by lia.
    cbn [WAVE.present]. rewrite M by lia. rewrite st_ret. unfold WAVE.fmtInt. replace ((valid <=? bits) && ((valid + 7) / 8 =? (bits + 7) / 8)) with true by lia.
    rewrite P with (k := bits / 8) by lia. eexists. split; reflexivity.
  - eqs. unfold w2, w4 in H. rewrite <- !app_assoc in H. unfold WAVE.fmtExt. do 4 hstep H. hfield H 16; [reflexivity|]. change (zlen (subformat 3)) with 16. change (negb (16 =? 16)) with false. cbv iota.
    change (teq (subformat 3) WAVE.G_pcm) with false. change (teq (subformat 3) WAVE.G_float) with true. cbv iota. cbn [WAVE.present]. rewrite M by lia. rewrite st_ret. unfold WAVE.fmtFloat. eqs.
    rewrite P with (k := 4) by (try lia; reflexivity). eexists. split; reflexivity.
  - eqs. unfold w2, w4 in H. rewrite <- !app_assoc in H. unfold WAVE.fmtExt. do 4 hstep H. hfield H 16; [reflexivity|]. change (zlen (subformat 3)) with 16. change (negb (16 =? 16)) with false. cbv iota.
    change (teq (subformat 3) WAVE.G_pcm) with false. change (teq (subformat 3) WAVE.G_float) with true. cbv iota. cbn [WAVE.present]. rewrite M by lia. rewrite st_ret. unfold WAVE.fmtFloat. eqs.
    rewrite P with (k := 8) by (try lia; reflexivity). eexists. split; reflexivity.
  - rewrite Z.mul_1_l. eqs. unfold w2, w4 in H. rewrite <- !app_assoc in H. unfold WAVE.fmtExt. do 4 hstep H. hfield H 16; [reflexivity|]. change (zlen (subformat 6)) with 16. change (negb (16 =? 16)) with false. cbv iota.
    change (teq (subformat 6) WAVE.G_pcm) with false. change (teq (subformat 6) WAVE.G_float) with false. change (teq (subformat 6) WAVE.G_alaw) with true. cbv iota. eexists. split; reflexivity.
  - rewrite Z.mul_1_l. eqs. unfold w2, w4 in H. rewrite <- !app_assoc in H. unfold WAVE.fmtExt. do 4 hstep H. hfield H 16; [reflexivity|]. change (zlen (subformat 7)) with 16. change (negb (16 =? 16)) with false. cbv iota.
    change (teq (subformat 7) WAVE.G_pcm) with false. change (teq (subformat 7) WAVE.G_float) with false. change (teq (subformat 7) WAVE.G_alaw) with false. change (teq (subformat 7) WAVE.G_ulaw) with true. cbv iota. eexists. split; reflexivity.
Qed.

Definition factSt (s : WAVE.waveSt) (n : Z) : WAVE.waveSt := WAVE.WaveSt (WAVE.wv_fmt s) (WAVE.wv_coefs s) (WAVE.wv_data s) (WAVE.wv_first s) (WAVE.wv_dsize s) (Some n) (WAVE.wv_marks s) (WAVE.wv_misc s).
Lemma fact_handles {B : Build} host s frames n : 0 <= frames < 2 ^ 32 -> handles (WAVE.waveChunk host) s WAVE.T_fact n (w4 frames) (factSt s frames).
Proof.
  intros Hf b p rest Hp H. unfold WAVE.waveChunk. repeat match goal with |- context [teq ?a ?b] => let v := eval vm_compute in (teq a b) in change (teq a b) with v end. cbv iota.
  unfold WAVE.parseFact, w4 in *. hstep H. change (8 * Z.of_nat 4) with 32. rewrite Z.mod_small by exact Hf. eexists. split; reflexivity.
Qed.

(** The format chunk before the data, an optional frame count between them, unknown chunks anywhere. *)
Theorem C61_wave_codes :
  forall (B : Build) host tag ch rate avg align more sf w o c k data fact l1 l2 l3 l4 fuel,
    waveCode host tag more sf w o c k -> 0 < ch < 2 ^ 16 -> 0 <= rate < 2 ^ 32 -> 0 <= align < 2 ^ 16 -> zlen more mod 2 = 0 ->
    match fact with Some n => 0 <= n < 2 ^ 32 | None => True end -> Forall (unknownTo waveKnown) (l1 ++ l2 ++ l3 ++ l4) ->
    let before := l1 ++ [fmtChunk tag ch rate avg align more] ++ l2 ++ (match fact with Some n => [factChunk n] | None => [] end) ++ l3 in
    let l := before ++ dataChunk data :: l4 in
    zlen (chunksBytes LittleEndian l) <= 2 ^ 32 - 36 -> (length l <= fuel)%nat ->
    exists s f', WAVE.waveOpen host fuel (mkFile (waveFile l) 0) =
      Ok (Some ((mkParsed (mkFmt rate sf w ch o c 1 (k * ch)) (20 + zlen (chunksBytes LittleEndian before)) (zlen data) (match fact with Some n => n | None => zlen data / (k * ch) end), s), f')).
Proof.
  intros B host tag ch rate avg align more sf w o c k data fact l1 l2 l3 l4 fuel Hcode Hc Hr Ha Hm Hfact Hu before l Hl Hfu. change (2 ^ 16) with 65536 in *. change (2 ^ 32) with 4294967296 in Hl.
  apply Forall_app in Hu as [U1 Hu]. apply Forall_app in Hu as [U2 Hu]. apply Forall_app in Hu as [U3 U4].
  set (fm := mkFmt rate sf w ch o c 1 (k * ch)).
  set (s1 := WAVE.WaveSt (Some fm) [] false 0 0 fact [] []).
  assert (SK : forall l s, Forall (unknownTo waveKnown) l -> handlesAll (WAVE.waveChunk host) s l s) by (apply handles_skipped; intros; now apply wave_skips).
  pose proof (zlen_nonneg more) as Zm. pose proof (zlen_nonneg data) as Zd.
  assert (HB : handlesAll (WAVE.waveChunk host) WAVE.waveSt0 before s1).
  { unfold before. apply handlesAll_app with (s' := WAVE.waveSt0); [apply SK; exact U1|].
    apply handlesAll_app with (s' := WAVE.withFormat WAVE.waveSt0 fm []).
    { econstructor; [reflexivity|lia| |exact (fmt_code_handles host WAVE.waveSt0 tag ch rate avg align more sf w o c k _ Hcode Hc Hr Ha)|constructor].
      unfold w2, w4. rewrite !zlen_app, !sampleBytes_zlen. change (Z.of_nat 2) with 2. change (Z.of_nat 4) with 4. lia. }
    apply handlesAll_app with (s' := WAVE.withFormat WAVE.waveSt0 fm []); [apply SK; exact U2|].
    apply handlesAll_app with (s' := s1); [|apply SK; exact U3].
    destruct fact as [n|]; [|constructor]. econstructor; [reflexivity|lia|reflexivity|apply fact_handles; exact Hfact|constructor]. }
  set (b := waveFile l).
  assert (H : zskipn 0 b = WAVE.T_RIFF ++ sampleBytes LittleEndian 4 (4 + zlen (chunksBytes LittleEndian l)) ++ WAVE.T_WAVE ++ chunksBytes LittleEndian l) by (rewrite zskipn_0 by lia; reflexivity).
  clearbody b. unfold WAVE.waveOpen, WAVE.waveRead. rewrite PropertiesCAF.hbind_assoc, st_seek. cbn [fbytes]. rewrite PropertiesCAF.hbind_assoc. hfield H 4; [reflexivity|]. change (0 + 4) with 4 in *.
  rewrite PropertiesCAF.hbind_assoc. hstep H. change (4 + Z.of_nat 4) with 8 in *. rewrite PropertiesCAF.hbind_assoc.
  hfield H 4; [reflexivity|]. change (8 + 4) with 12 in *. rewrite PropertiesCAF.hbind_assoc, st_assert by reflexivity. rewrite PropertiesCAF.hbind_assoc, st_assert by reflexivity. 
  pose proof (zlen_nonneg (chunksBytes LittleEndian l)) as Zl.
  change (8 * Z.of_nat 4) with 32. change (2 ^ 32) with 4294967296. rewrite (Z.mod_small (4 + zlen (chunksBytes LittleEndian l))) by lia. cbn [WAVE.present]. rewrite PropertiesCAF.hbind_assoc, st_ret.
  assert (W : forall v, 0 <= v < 2 ^ 32 -> u32 v = v) by (intros v Hv; unfold u32; apply uN_small; exact Hv).
  pose (s2 := WAVE.WaveSt (Some fm) [] true (20 + zlen (chunksBytes LittleEndian before)) (zlen data) fact [] []).
  assert (SD : WAVE.waveChunk host s1 WAVE.T_data (zlen data) (mkFile b (20 + zlen (chunksBytes LittleEndian before))) = Ok (Some (s2, mkFile b (20 + zlen (chunksBytes LittleEndian before))))).
  { unfold WAVE.waveChunk. repeat match goal with |- context [teq ?a ?b] => let v := eval vm_compute in (teq a b) in change (teq a b) with v end. reflexivity. }
  unfold l in *. rewrite app_length in Hfu. cbn [length] in Hfu.
  destruct (chunkLoop_file LittleEndian u32 (WAVE.waveChunk host) (4 + zlen (chunksBytes LittleEndian (before ++ dataChunk data :: l4))) b before WAVE.T_data (zlen data) (data ++ (if zlen data mod 2 =? 0 then [] else [0])) l4 _ _ s2 s2 _ fuel W HB
    eq_refl Zd (padded_len _ _ eq_refl) SD eq_refl (SK l4 s2 U4) H eq_refl ltac:(change (2 ^ 32) with 4294967296; lia) ltac:(lia)) as (f'' & E).
  unfold hbind. rewrite E. cbn [rbind]. unfold WAVE.waveParsed. cbn [s2 WAVE.wv_fmt WAVE.wv_data WAVE.wv_fact negb WAVE.wv_first WAVE.wv_dsize].
  assert (Hk : 0 < k * ch). { assert (0 < k); [|nia]. destruct Hcode; lia. }
  destruct fact as [n|]; [eexists _, _; reflexivity|]. change (f_bpp fm) with (k * ch). change (f_fpp fm) with 1. replace (k * ch =? 0) with false by lia. cbn [negb andb Z.eqb].
  rewrite computeTotal_floor; [eexists _, _; reflexivity|reflexivity|exact Hk|]. change (2 ^ 62) with 4611686018427387904. split; [lia|].
  assert (zlen data <= zlen (chunksBytes LittleEndian (before ++ dataChunk data :: l4))); [|lia].
  rewrite chunksBytes_app, zlen_app. unfold dataChunk. rewrite chunksBytes_len by (try reflexivity; apply padded_len; reflexivity).
  pose proof (zlen_nonneg (chunksBytes LittleEndian before)). pose proof (zlen_nonneg (chunksBytes LittleEndian l4)). assert (0 <= zlen data mod 2 < 2) by (apply Z.mod_pos_bound; lia). lia.
Qed.
Print Assumptions C61_wave_codes.
Example C61_wave_example : exists s f', WAVE.waveOpen (B := false) LittleEndian 3 (mkFile (waveFile
     [([74;85;78;75], 1, [5;0]); fmtChunk 0xfffe 1 48000 144000 3 (w2 24 ++ w2 22 ++ w2 20 ++ w4 4 ++ subformat 1); dataChunk [1;2;3;4;5;6]]) 0) =
  Ok (Some ((mkParsed (mkFmt 48000 TwosComp 20 1 LittleEndian CNone 1 3) 78 6 2, s), f')).
Proof.
  exact (C61_wave_codes false LittleEndian 0xfffe 1 48000 144000 3 _ _ _ _ _ _ [1;2;3;4;5;6] None [([74;85;78;75], 1, [5;0])] [] [] [] 3 (WC_ext_pcm _ 24 20 4 ltac:(lia) ltac:(lia)) ltac:(lia) ltac:(lia) ltac:(lia) eq_refl I
    ltac:(repeat constructor; cbn; try lia; intuition discriminate) ltac:(vm_compute; congruence) ltac:(cbn; lia)).
Qed.
