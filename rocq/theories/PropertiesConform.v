(** * C77: the files that are written are what their formats prescribe

    The round-trip theorems show that the library reads its own files.  Here the bytes themselves are compared with each format's published layout, field by field,
    including the fields this library never looks at when it reads: other programs do. *)
From Verif Require Import Prelude PreludeFacts ByteOrder FileIO Writer WriterSpec WriterProofs WriterHistory Codecs CodecsProofs PropertiesWriter PropertiesRoundTrip HeaderIO FileRoundTrip Float FloatBits.
From Verif Require CAF PropertiesCAF NeXT PropertiesNeXT AVR PropertiesAVR IRCAM PropertiesIRCAM VOC PropertiesVOC SampleVision PropertiesSampleVision.
From Coq Require String Ascii.
Import String.StringSyntax.

(** ** Specification *)
(** Numbers of 2, 4 and 8 bytes, most significant byte first and last; letters. *)
Definition byteAt (i v : Z) : Z := v / 256 ^ i mod 256.
Definition b16 (v : Z) : list Z := [byteAt 1 v; byteAt 0 v].
Definition b32 (v : Z) : list Z := [byteAt 3 v; byteAt 2 v; byteAt 1 v; byteAt 0 v].
Definition b64 (v : Z) : list Z := [byteAt 7 v; byteAt 6 v; byteAt 5 v; byteAt 4 v] ++ b32 v.
Definition l16 (v : Z) : list Z := rev (b16 v).
Definition l32 (v : Z) : list Z := rev (b32 v).
Definition letters (s : String.string) : list Z := map (fun c => Z.of_nat (Ascii.nat_of_ascii c)) (String.list_ascii_of_string s).
Local Arguments letters _%string_scope.

(** How many packets (blocks) hold [total] frames, and the bytes of [total] frames. *)
Definition packets (fpp total : Z) : Z := (total + fpp - 1) / fpp.
Definition audioBytes {R} (fm : formatOf R) (total : Z) : Z := f_bpp fm * packets (f_fpp fm) total.

(** The file that results when [ws] is written with codec [c], piece by piece, and the file is closed: its bytes are [file total audio], where [audio]
    is what the codec makes of the frames. *)
Definition writesFile {E} (B : Build) (c : wcodec (list Z) E) {V} (conv : V -> list Z) junk upd hdr first cap e0 (ws : list (list V)) (file : Z -> list Z -> list Z -> Prop) : Prop :=
  exists d st, audio c junk e0 (map conv (concat ws)) = Ok d /\
    wrun c conv junk true upd (openWrite c hdr first cap e0) (map Write ws ++ [Sync]) = Ok st /\
    file (zlen (concat ws)) d (fbytes (ws_file st)).

(** The codec's packets are the format's. *)
Definition codecOf {E R} (c : wcodec (list Z) E) (fm : formatOf R) : Prop :=
  match c with WPerFrame _ bpf _ => f_fpp fm = 1 /\ f_bpp fm = bpf | WBlocks fpp bpp _ => f_fpp fm = fpp /\ f_bpp fm = bpp end.

(** ** The numbers of the model *)
Lemma be_bytes2 v : be_bytes 2 v = b16 v.
Proof. cbn. unfold b16, byteAt. change (256 ^ 1) with 256. change (256 ^ 0) with 1. rewrite Z.div_1_r. reflexivity. Qed.
Lemma be_bytes4 v : be_bytes 4 v = b32 v.
Proof.
  cbn. unfold b32, byteAt. change (256 ^ 3) with (256 * 256 * 256). change (256 ^ 2) with (256 * 256). change (256 ^ 1) with 256. change (256 ^ 0) with 1.
  rewrite Z.div_1_r, <- !Z.div_div by lia. reflexivity.
Qed.
Lemma be_bytes8 v : be_bytes 8 v = b64 v.
Proof.
  cbn. unfold b64, b32, byteAt. change (256 ^ 7) with (256 * 256 * 256 * 256 * 256 * 256 * 256). change (256 ^ 6) with (256 * 256 * 256 * 256 * 256 * 256). change (256 ^ 5) with (256 * 256 * 256 * 256 * 256).
  change (256 ^ 4) with (256 * 256 * 256 * 256). change (256 ^ 3) with (256 * 256 * 256). change (256 ^ 2) with (256 * 256). change (256 ^ 1) with 256. change (256 ^ 0) with 1.
  rewrite Z.div_1_r, <- !Z.div_div by lia. reflexivity.
Qed.
Lemma sb2 v : sampleBytes BigEndian 2 v = b16 v. Proof. apply be_bytes2. Qed.
Lemma sb4 v : sampleBytes BigEndian 4 v = b32 v. Proof. apply be_bytes4. Qed.
Lemma sb8 v : sampleBytes BigEndian 8 v = b64 v. Proof. apply be_bytes8. Qed.
Lemma le_is_rev n v : le_bytes n v = rev (be_bytes n v). Proof. unfold be_bytes. now rewrite rev_involutive. Qed.
Lemma sl2 v : sampleBytes LittleEndian 2 v = l16 v. Proof. unfold sampleBytes, l16. now rewrite le_is_rev, be_bytes2. Qed.
Lemma sl4 v : sampleBytes LittleEndian 4 v = l32 v. Proof. unfold sampleBytes, l32. now rewrite le_is_rev, be_bytes4. Qed.
Lemma so1 o v : sampleBytes o 1 v = [byteAt 0 v].
Proof. unfold sampleBytes, byteAt. change (256 ^ 0) with 1. rewrite Z.div_1_r. destruct o; reflexivity. Qed.

(** ** The file before the last update of its header *)
Lemma written_file {V} (B : Build) E (c : wcodec (list Z) E) okF okE {R} (fm : formatOf R) : library E c okF okE -> codecOf c fm ->
  forall (conv : V -> list Z) junk upd hdr first cap e0 (ws : list (list V)) (file : Z -> list Z -> list Z -> Prop),
  okF junk -> 0 <= first -> okE e0 -> room c cap -> Forall okF (map conv (concat ws)) ->
  (forall d t, w_first t = first -> w_totalf t = zlen (concat ws) -> w_dsize t = zlen d -> w_after t = first + zlen d ->
     zlen d = audioBytes fm (zlen (concat ws)) ->
     file (zlen (concat ws)) d (fbytes (upd (mkFile (overwrite hdr first d) (first + zlen d)) t))) ->
  writesFile B c conv junk upd hdr first cap e0 ws file.
Proof.
  intros HL HC conv junk upd hdr first cap e0 ws file Hj Hf He Hr Hok HF.
  destruct (C24_file_contents B E c okF okE HL V conv junk upd hdr first cap e0 ws Hj Hf He Hr Hok) as (d & st & t & A & W & Fi & T1 & T2 & T3 & T4).
  destruct (C51_counts_after_writing B E c okF okE HL V conv junk upd hdr first cap e0 ws Hj Hf He Hr Hok) as (st' & W' & _).
  exists d, st. split; [exact A|]. split; [exact W|]. rewrite Fi. apply HF; auto.
  destruct (writes_sync c conv junk upd okF okE (library_lawful _ _ _ _ HL) Hj hdr first cap e0 Hf He Hr ws Hok) as (d2 & st2 & A2 & R2 & TT & _).
  assert (d2 = d) as -> by congruence. rewrite W in R2. assert (st = st2) as -> by congruence.
  destruct (C51_counts_after_writing B E c okF okE HL V conv junk upd hdr first cap e0 ws Hj Hf He Hr Hok) as (st3 & W3 & S1 & S2 & S3 & S4).
  rewrite W in W3. assert (st2 = st3) as <- by congruence.
  assert (D : w_dsize (ws_track st2) = zlen d) by (rewrite TT; unfold finalTrack; destruct c; reflexivity).
  rewrite <- D, S4. unfold audioBytes, packets. destruct c; destruct HC as [-> ->]; [|reflexivity]. replace (zlen (concat ws) + 1 - 1) with (zlen (concat ws)) by lia. now rewrite Z.div_1_r.
Qed.
Lemma ow_at_end h d : overwrite h (zlen h) d = h ++ d.
Proof.
  replace (overwrite h (zlen h) d) with (overwrite (h ++ []) (zlen h) d) by (rewrite app_nil_r; reflexivity).
  rewrite (ow_past h [] (zlen h) d), Z.sub_diag by lia. f_equal. destruct d as [|x d]; [reflexivity|]. unfold overwrite, zskipn. rewrite skipn_nil. change (zfirstn 0 _) with (@nil Z). cbn [app]. now rewrite app_nil_r.
Qed.

(** ** Core Audio files *)
(** Format identifier, flags, bytes per packet, frames per packet, bits per channel. *)
Inductive cafCodes (ch : Z) : formatOf spec_float -> list Z -> Z -> Z -> Z -> Z -> Prop :=
| CC_int r w o b : 1 <= w <= 32 -> b = (w + 7) / 8 * ch -> cafCodes ch (mkFmt r TwosComp w ch o CNone 1 b) (letters "lpcm") (match o with LittleEndian => 2 | BigEndian => 0 end) b 1 w
| CC_float r o : cafCodes ch (mkFmt r Float 32 ch o CNone 1 (4 * ch)) (letters "lpcm") (match o with LittleEndian => 3 | BigEndian => 1 end) (4 * ch) 1 32
| CC_double r o : cafCodes ch (mkFmt r Double 64 ch o CNone 1 (8 * ch)) (letters "lpcm") (match o with LittleEndian => 3 | BigEndian => 1 end) (8 * ch) 1 64
| CC_ulaw r o : cafCodes ch (mkFmt r TwosComp 16 ch o CUlaw 1 ch) (letters "ulaw") 0 ch 1 8
| CC_alaw r o : cafCodes ch (mkFmt r TwosComp 16 ch o CAlaw 1 ch) (letters "alaw") 0 ch 1 8
| CC_ima r o : cafCodes ch (mkFmt r TwosComp 16 ch o CIMA 64 (34 * ch)) (letters "ima4") 0 (34 * ch) 64 16.
Definition cafLayout (fm : formatOf spec_float) (total : Z) (audio bytes : list Z) : Prop :=
  exists id flags bpp fpp bits rate, cafCodes (f_chan fm) fm id flags bpp fpp bits /\ of64 rate = f_rate fm /\ 0 <= rate < 2 ^ 64 /\
    zlen audio = bpp * packets fpp total /\
    bytes = letters "caff" ++ b16 1 ++ b16 0 ++
      letters "desc" ++ b64 32 ++ b64 rate ++ id ++ b32 flags ++ b32 bpp ++ b32 fpp ++ b32 (f_chan fm) ++ b32 bits ++
      letters "data" ++ b64 (zlen audio + 4) ++ b32 0 ++ audio.

Theorem C77_caf_layout :
  forall (B : Build) host rate fm, PropertiesCAF.cafFmt host rate fm -> validD rate = true ->
  forall E c okF okE, library E c okF okE -> codecOf c fm ->
  forall (V : Type) (conv : V -> list Z) junk cap e0 (ws : list (list V)),
    okF junk -> okE e0 -> room c cap -> Forall okF (map conv (concat ws)) ->
    writesFile B c conv junk CAF.cafUpdate (CAF.cafInit fm) CAF.cafFirst cap e0 ws (cafLayout fm).
Proof.
  intros B host rate fm Hf Hr E c okF okE HL HC V conv junk cap e0 ws Hj He Hro Hok.
  apply (written_file B E c okF okE fm HL HC); auto; [unfold CAF.cafFirst; lia|].
  intros d t T1 T2 T3 T4 L. unfold CAF.cafFirst in *.
  assert (Lh : zlen (CAF.cafInit fm) = 68) by (unfold CAF.cafInit; rewrite zlen_app, PropertiesCAF.cafPre_len, PropertiesCAF.cafData_len; reflexivity).
  destruct (bits64_round rate Hr) as [Rb Er]. rewrite <- Lh at 1. rewrite ow_at_end.
  unfold CAF.cafUpdate, fseek, fwrite. cbn [fbytes fpos]. unfold CAF.cafInit. rewrite <- app_assoc, <- (PropertiesCAF.cafPre_len fm), ow_mid by reflexivity. rewrite T3.
  assert (G : exists id flags bpp fpp bits, cafCodes (f_chan fm) fm id flags bpp fpp bits /\ CAF.cafFields fm = (id, flags, bpp, fpp, bits) /\ f_rate fm = rate /\ f_bpp fm = bpp /\ f_fpp fm = fpp).
  { destruct Hf as [o sgn n Hp|ch -> Hc|ch -> Hc|ch -> Hc Hs]; [destruct Hp as [w ch -> -> Hw En Hc Hs|ch -> -> -> Hc Hs|ch -> -> -> Hc Hs]| | |];
      do 5 eexists; (split; [|split; [reflexivity|repeat split]]); cbn [f_chan f_bpp f_fpp].
    - destruct o; (apply CC_int; [exact Hw|cbn [f_width]; rewrite En; reflexivity]).
    - destruct o; apply CC_float.
    - destruct o; apply CC_double.
    - apply CC_ulaw.
    - apply CC_alaw.
    - apply CC_ima. }
  destruct G as (id & flags & bpp & fpp & bits & G & EF & ER & E1 & E2). exists id, flags, bpp, fpp, bits, (bits64 rate).
  split; [exact G|]. split; [rewrite Er; auto|]. split; [exact Rb|]. split; [rewrite L; unfold audioBytes; now rewrite E1, E2|].
  unfold CAF.cafPre, CAF.cafDesc, CAF.cafData, CAF.be8, CAF.beU. rewrite EF, ER, !sb4, !sb8. rewrite <- !app_assoc. reflexivity.
Qed.
Print Assumptions C77_caf_layout.

(** ** NeXT/Sun files *)
Inductive nextCode {R} : formatOf R -> Z -> Prop :=
| NC_ulaw r w ch o b : nextCode (mkFmt r TwosComp w ch o CUlaw 1 b) 1
| NC_8 r ch o b : nextCode (mkFmt r TwosComp 8 ch o CNone 1 b) 2
| NC_16 r ch o b : nextCode (mkFmt r TwosComp 16 ch o CNone 1 b) 3
| NC_24 r ch o b : nextCode (mkFmt r TwosComp 24 ch o CNone 1 b) 4
| NC_32 r ch o b : nextCode (mkFmt r TwosComp 32 ch o CNone 1 b) 5
| NC_float r ch o b : nextCode (mkFmt r Float 32 ch o CNone 1 b) 6
| NC_double r ch o b : nextCode (mkFmt r Double 64 ch o CNone 1 b) 7
| NC_alaw r w ch o b : nextCode (mkFmt r TwosComp w ch o CAlaw 1 b) 27.
(** The audio starts at byte 28, after four bytes of annotation. *)
Definition nextLayout (fm : format) (total : Z) (audio bytes : list Z) : Prop :=
  exists code, nextCode fm code /\ zlen audio = audioBytes fm total /\
    bytes = letters ".snd" ++ b32 28 ++ b32 (zlen audio) ++ b32 code ++ b32 (f_rate fm) ++ b32 (f_chan fm) ++ [0; 0; 0; 0] ++ audio.
Inductive nextFmt (host : order) (rate : Z) (fm : format) : Prop :=
| NX_pcm sf n ch : PropertiesNeXT.nextPCM sf n -> fm = mkFmt rate sf (8 * Z.of_nat n) ch BigEndian CNone 1 (Z.of_nat n * ch) -> nextFmt host rate fm
| NX_g711 c ch : c = CUlaw \/ c = CAlaw -> fm = mkFmt rate TwosComp 16 ch host c 1 ch -> nextFmt host rate fm.

Theorem C77_next_layout :
  forall (B : Build) host rate fm, nextFmt host rate fm ->
  forall E c okF okE, library E c okF okE -> codecOf c fm ->
  forall (V : Type) (conv : V -> list Z) junk cap e0 (ws : list (list V)),
    okF junk -> okE e0 -> room c cap -> Forall okF (map conv (concat ws)) -> audioBytes fm (zlen (concat ws)) <> 0 ->
    writesFile B c conv junk (NeXT.nextUpdate fm) (NeXT.nextInit fm) NeXT.nextFirst cap e0 ws (nextLayout fm).
Proof.
  intros B host rate fm Hf E c okF okE HL HC V conv junk cap e0 ws Hj He Hro Hok Hne.
  apply (written_file B E c okF okE fm HL HC); auto; [unfold NeXT.nextFirst; lia|].
  intros d t T1 T2 T3 T4 L. unfold NeXT.nextFirst in *.
  assert (Lh : forall a b, zlen (NeXT.nextHeader fm a b) = 24) by (intros; unfold NeXT.nextHeader; rewrite !zlen_app, !sampleBytes_zlen; reflexivity).
  assert (ED : overwrite (NeXT.nextInit fm) 28 d = NeXT.nextInit fm ++ [0; 0; 0; 0] ++ d).
  { replace (overwrite (NeXT.nextInit fm) 28 d) with (overwrite (NeXT.nextInit fm ++ []) 28 d) by (rewrite app_nil_r; reflexivity). rewrite (ow_past _ [] 28 d) by (unfold NeXT.nextInit; rewrite Lh; lia).
    f_equal. unfold NeXT.nextInit. rewrite Lh. destruct d as [|x d]; [rewrite zlen_nil in L; lia|]. unfold overwrite, zskipn. rewrite skipn_nil, app_nil_r. reflexivity. }
  rewrite ED. unfold NeXT.nextUpdate, fseek, fwrite. cbn [fbytes fpos]. rewrite T1, T3. unfold NeXT.nextInit.
  pose proof (ow_mid [] (NeXT.nextHeader fm 0 0) (NeXT.nextHeader fm 28 (zlen d)) ([0; 0; 0; 0] ++ d) ltac:(rewrite !Lh; reflexivity)) as OM. cbn [app] in OM. change (zlen (@nil Z)) with 0 in OM. cbn [app]. rewrite OM. clear OM.
  assert (G : nextCode fm (NeXT.nextEncoding fm)).
  { destruct Hf as [sf n ch Hp ->|c0 ch [-> | ->] ->]; [|apply NC_ulaw|apply NC_alaw]. destruct Hp as [n Hn| |]; [|apply NC_float|apply NC_double].
    destruct n as [|[|[|[|[|n]]]]]; try lia; [apply NC_8|apply NC_16|apply NC_24|apply NC_32]. }
  exists (NeXT.nextEncoding fm). split; [exact G|]. split; [exact L|]. unfold NeXT.nextHeader. rewrite !sb4, <- !app_assoc. reflexivity.
Qed.
Print Assumptions C77_next_layout.

(** ** Audio Visual Research files *)
(** Name, channels, bits, sign, no loop, no MIDI note, rate with the byte of the replay speed, length, loop from the start to the end, reserved and user fields. *)
Definition avrLayout (name : list Z) (fm : format) (total : Z) (audio bytes : list Z) : Prop :=
  zlen audio = audioBytes fm total /\
  bytes = letters "2BIT" ++ name ++ b16 (if f_chan fm =? 1 then 0 else 65535) ++ b16 (f_width fm) ++ b16 (match f_sf fm with Unsigned => 0 | _ => 65535 end) ++ b16 0 ++ b16 65535 ++
    255 :: [byteAt 2 (f_rate fm); byteAt 1 (f_rate fm); byteAt 0 (f_rate fm)] ++ b32 total ++ b32 0 ++ b32 total ++ zrepeat 0 26 ++ zrepeat 0 64 ++ audio.
Theorem C77_avr_layout :
  forall (B : Build) sf n ch rate name, PropertiesAVR.avrPCM sf n -> ch = 1 \/ ch = 2 -> 0 <= rate < 2 ^ 24 -> zlen name = 8 ->
    let fm := mkFmt rate sf (8 * Z.of_nat n) ch BigEndian CNone 1 (Z.of_nat n * ch) in
  forall E c okF okE, library E c okF okE -> codecOf c fm ->
  forall (V : Type) (conv : V -> list Z) junk cap e0 (ws : list (list V)),
    okF junk -> okE e0 -> room c cap -> Forall okF (map conv (concat ws)) ->
    writesFile B c conv junk AVR.avrUpdate (AVR.avrInit name fm) AVR.avrFirst cap e0 ws (avrLayout name fm).
Proof.
  intros B sf n ch rate name Hp Hc Hr Hn fm E c okF okE HL HC V conv junk cap e0 ws Hj He Hro Hok. change (2 ^ 24) with 16777216 in Hr.
  apply (written_file B E c okF okE fm HL HC); auto; [unfold AVR.avrFirst; lia|].
  intros d t T1 T2 T3 T4 L. unfold AVR.avrFirst in *.
  assert (Lp : zlen (AVR.avrPre name fm) = 26) by (unfold AVR.avrPre; rewrite !zlen_app, !sampleBytes_zlen, Hn; reflexivity).
  assert (Ls : forall x, zlen (AVR.avrSizes x) = 12) by (intros; unfold AVR.avrSizes; rewrite !zlen_app, !sampleBytes_zlen; reflexivity).
  assert (Lh : zlen (AVR.avrInit name fm) = 128) by (unfold AVR.avrInit, AVR.avrPost; rewrite !zlen_app, Lp, Ls, zlen_repeat by lia; reflexivity).
  rewrite <- Lh at 1. rewrite ow_at_end. unfold AVR.avrUpdate, fseek, fwrite. cbn [fbytes fpos]. unfold AVR.avrInit. rewrite <- !app_assoc, <- Lp, ow_mid by (rewrite !Ls; reflexivity). rewrite T2.
  split; [exact L|]. unfold AVR.avrPre, AVR.avrSizes, AVR.avrPost. rewrite !sb2, !sb4. 
  assert (ER : b32 (Z.lor (u32 (f_rate fm)) 4278190080) = 255 :: [byteAt 2 (f_rate fm); byteAt 1 (f_rate fm); byteAt 0 (f_rate fm)]).
  { cbn [fm f_rate]. assert (EU : u32 rate = rate) by (unfold u32; apply uN_small; change (2 ^ 32) with 4294967296; lia). rewrite EU.
    assert (EL : Z.lor rate 4278190080 = rate + 4278190080).
    { assert (E0 : Z.land rate 4278190080 = 0).
      { apply Z.bits_inj'; intros i Hi. rewrite Z.land_spec, Z.bits_0. destruct (Z.lt_ge_cases i 24) as [Hi'|Hi'].
        - change 4278190080 with (255 * 2 ^ 24). rewrite Z.mul_pow2_bits_low by lia. apply andb_false_r.
        - assert (Z.testbit rate i = false) as ->; [|reflexivity]. destruct (Z.eq_dec rate 0) as [E00|Hnz]; [rewrite E00; apply Z.bits_0|]. apply Z.bits_above_log2; [lia|].
          assert (Z.log2 rate < 24) by (apply Z.log2_lt_pow2; [lia|change (2 ^ 24) with 16777216; lia]). lia. }
      rewrite <- Z.lxor_lor, <- Z.add_nocarry_lxor by exact E0. reflexivity. }
    rewrite EL. unfold b32, byteAt. change (256 ^ 3) with 16777216. change (256 ^ 2) with 65536. change (256 ^ 1) with 256. change (256 ^ 0) with 1.
    assert (A3 : (rate + 4278190080) / 16777216 mod 256 = 255) by lia. assert (A2 : (rate + 4278190080) / 65536 mod 256 = rate / 65536 mod 256) by lia.
    assert (A1 : (rate + 4278190080) / 256 mod 256 = rate / 256 mod 256) by lia. assert (A0 : (rate + 4278190080) / 1 mod 256 = rate / 1 mod 256) by lia.
    rewrite A3, A2, A1, A0. reflexivity. }
  change 0xff000000 with 4278190080. rewrite ER, <- !app_assoc. change (26 + 64) with (26 + 64). replace (zrepeat 0 (26 + 64)) with (zrepeat 0 26 ++ zrepeat 0 64) by reflexivity. rewrite <- !app_assoc. reflexivity.
Qed.
Print Assumptions C77_avr_layout.

(** ** IRCAM files *)
Inductive ircamCode {R} : formatOf R -> Z -> Prop :=
| IC_8 r ch o b : ircamCode (mkFmt r TwosComp 8 ch o CNone 1 b) 1
| IC_16 r ch o b : ircamCode (mkFmt r TwosComp 16 ch o CNone 1 b) 2
| IC_24 r ch o b : ircamCode (mkFmt r TwosComp 24 ch o CNone 1 b) 3
| IC_32 r ch o b : ircamCode (mkFmt r TwosComp 32 ch o CNone 1 b) 262148   (* 0x40004 *)
| IC_float r ch o b : ircamCode (mkFmt r Float 32 ch o CNone 1 b) 4
| IC_double r ch o b : ircamCode (mkFmt r Double 64 ch o CNone 1 b) 8
| IC_ulaw r w ch o b : ircamCode (mkFmt r TwosComp w ch o CUlaw 1 b) 131073   (* 0x20001 *)
| IC_alaw r w ch o b : ircamCode (mkFmt r TwosComp w ch o CAlaw 1 b) 65537.  (* 0x10001 *)
(** The magic number of a VAX (little-endian) or a Sun (big-endian), the rate as a float, the channels and the coding, in the order the magic number tells;
    the header takes 1024 bytes. *)
Definition ircamLayout (host : order) (rate : spec_float) (fm : formatOf spec_float) (total : Z) (audio bytes : list Z) : Prop :=
  exists code word, ircamCode fm code /\ 0 <= word < 2 ^ 32 /\ of32 word = rate /\ zlen audio = audioBytes fm total /\
    bytes = (match host with LittleEndian => [100; 163; 1; 0] ++ l32 word ++ l32 (f_chan fm) ++ l32 code | BigEndian => [100; 163; 2; 0] ++ b32 word ++ b32 (f_chan fm) ++ b32 code end)
      ++ zrepeat 0 (1024 - 16) ++ audio.
Inductive ircamFmt (host : order) (r : spec_float) (fm : formatOf spec_float) : Prop :=
| IF_pcm sf n ch o : PropertiesIRCAM.ircamPCM sf n -> fm = mkFmt r sf (8 * Z.of_nat n) ch o CNone 1 (Z.of_nat n * ch) -> ircamFmt host r fm
| IF_g711 c ch : c = CUlaw \/ c = CAlaw -> fm = mkFmt r TwosComp 16 ch host c 1 ch -> ircamFmt host r fm.

Theorem C77_ircam_layout :
  forall (B : Build) host r fm hdr, ircamFmt host r fm -> validF (toFloat r) = true -> IRCAM.ircamInit host fm = Some hdr ->
  forall E c okF okE, library E c okF okE -> codecOf c fm ->
  forall (V : Type) (conv : V -> list Z) junk cap e0 (ws : list (list V)),
    okF junk -> okE e0 -> room c cap -> Forall okF (map conv (concat ws)) ->
    writesFile B c conv junk IRCAM.ircamUpdate hdr IRCAM.ircamFirst cap e0 ws (ircamLayout host (toFloat r) fm).
Proof.
  intros B host r fm hdr Hf Hr Hh E c okF okE HL HC V conv junk cap e0 ws Hj He Hro Hok.
  apply (written_file B E c okF okE fm HL HC); auto; [unfold IRCAM.ircamFirst; lia|].
  intros d t T1 T2 T3 T4 L. pose proof (PropertiesIRCAM.ircamInit_len host fm hdr Hh) as Lh. change IRCAM.ircamFirst with 1024 in *. rewrite <- Lh at 1. rewrite ow_at_end.
  unfold IRCAM.ircamUpdate. cbn [fbytes]. unfold IRCAM.ircamInit in Hh.
  assert (ER : f_rate fm = r) by (destruct Hf as [? ? ? ? ? ->|? ? ? ->]; reflexivity).
  assert (G : exists m, IRCAM.packMode fm = Some m /\ ircamCode fm m).
  { destruct Hf as [sf n ch o Hp ->|c0 ch [-> | ->] ->]; [|eexists; split; [reflexivity|apply IC_ulaw]|eexists; split; [reflexivity|apply IC_alaw]].
    destruct Hp as [n Hn| |]; [|eexists; split; [reflexivity|apply IC_float]|eexists; split; [reflexivity|apply IC_double]].
    destruct n as [|[|[|[|[|n]]]]]; try lia; (eexists; split; [reflexivity|]); [apply IC_8|apply IC_16|apply IC_24|apply IC_32]. }
  destruct G as (m & Em & G). rewrite Em in Hh. destruct (bits32_round _ Hr) as [Rb Er].
  exists m, (bits32 (toFloat r)). split; [exact G|]. split; [exact Rb|]. split; [auto|]. split; [exact L|].
  apply (f_equal (fun x => match x with Some y => y | None => [] end)) in Hh. cbv beta iota in Hh. rewrite <- Hh, ER.
  destruct host; rewrite ?sl4, ?sb4, <- !app_assoc; reflexivity.
Qed.
Print Assumptions C77_ircam_layout.

(** ** Creative Voice files *)
Definition l24 (v : Z) : list Z := [byteAt 0 v; byteAt 1 v; byteAt 2 v].
(** Bits and coding. *)
Inductive vocCode {R} : formatOf R -> Z -> Z -> Prop :=
| VC_8 r ch o b : vocCode (mkFmt r Unsigned 8 ch o CNone 1 b) 8 0
| VC_16 r ch o b : vocCode (mkFmt r TwosComp 16 ch o CNone 1 b) 16 4
| VC_alaw r w ch o b : vocCode (mkFmt r TwosComp w ch o CAlaw 1 b) 8 6
| VC_ulaw r w ch o b : vocCode (mkFmt r TwosComp w ch o CUlaw 1 b) 8 7.
(** Header: where the data start, version 1.20, its check; a block of type 9 with its length in three bytes; the block of type 0 that ends the file. *)
Definition vocLayout (fm : format) (total : Z) (audio bytes : list Z) : Prop :=
  exists bits code, vocCode fm bits code /\ zlen audio = audioBytes fm total /\
    bytes = letters "Creative Voice File" ++ [26] ++ l16 26 ++ l16 (256 * 1 + 20) ++ l16 (65535 - (256 * 1 + 20) + 4660) ++
      [9] ++ l24 (12 + zlen audio) ++ l32 (f_rate fm) ++ [bits; f_chan fm] ++ l16 code ++ l32 0 ++ audio ++ [0].
Inductive vocFmt (host : order) (rate ch : Z) (fm : format) : Prop :=
| VF_pcm sf n : PropertiesVOC.vocPCM sf n -> fm = mkFmt rate sf (8 * Z.of_nat n) ch LittleEndian CNone 1 (Z.of_nat n * ch) -> vocFmt host rate ch fm
| VF_g711 c : c = CUlaw \/ c = CAlaw -> fm = mkFmt rate TwosComp 16 ch host c 1 ch -> vocFmt host rate ch fm.

Lemma l32_low v : l32 (v * 256 + 9) = 9 :: l24 v.
Proof.
  unfold l32, l24, b32, byteAt. cbn [rev app]. change (256 ^ 3) with 16777216. change (256 ^ 2) with 65536. change (256 ^ 1) with 256. change (256 ^ 0) with 1.
  repeat (apply f_equal2; [lia|]). reflexivity.
Qed.
Theorem C77_voc_layout :
  forall (B : Build) host rate ch fm, vocFmt host rate ch fm -> 0 < ch < 256 ->
  forall E c okF okE, library E c okF okE -> codecOf c fm ->
  forall (V : Type) (conv : V -> list Z) junk cap e0 (ws : list (list V)),
    okF junk -> okE e0 -> room c cap -> Forall okF (map conv (concat ws)) ->
    12 + audioBytes fm (zlen (concat ws)) < 2 ^ 24 ->
    writesFile B c conv junk (VOC.vocUpdate fm) (VOC.vocInit fm) VOC.vocFirst cap e0 ws (vocLayout fm).
Proof.
  intros B host rate ch fm Hf Hch E c okF okE HL HC V conv junk cap e0 ws Hj He Hro Hok Hsz.
  apply (written_file B E c okF okE fm HL HC); auto; [unfold VOC.vocFirst; lia|].
  intros d t T1 T2 T3 T4 L. change VOC.vocFirst with 42 in *.
  assert (Lh : forall n, zlen (VOC.vocPre ++ VOC.vocSound fm n) = 42) by (intros; rewrite zlen_app, PropertiesVOC.vocSound_len; reflexivity).
  unfold VOC.vocUpdate, fwrite, fseek. cbn [fbytes fpos]. unfold VOC.vocInit. rewrite <- (Lh 0) at 1. rewrite ow_at_end, <- app_assoc.
  change 26 with (zlen VOC.vocPre) at 1. rewrite ow_mid by now rewrite !PropertiesVOC.vocSound_len. rewrite T1, T3.
  assert (EE : 42 + zlen d = zlen (VOC.vocPre ++ VOC.vocSound fm (zlen d) ++ d)) by (rewrite app_assoc, zlen_app, Lh; reflexivity).
  rewrite EE, ow_at_end, <- !app_assoc.
  assert (G : exists bits code, vocCode fm bits code /\ VOC.vocBits fm = bits /\ VOC.vocFormat fm = code /\ 0 <= bits < 256 /\ f_chan fm = ch).
  { destruct Hf as [sf n Hp ->|c0 [-> | ->] ->]; [destruct Hp| |]; do 2 eexists; (split; [constructor|split; [reflexivity|split; [reflexivity|split; [cbn; lia|reflexivity]]]]). }
  destruct G as (bits & code & G & E1 & E2 & Hb & Ech). exists bits, code. split; [exact G|]. split; [exact L|].
  unfold VOC.vocPre, VOC.vocSound, VOC.le2, VOC.le4. rewrite E1, E2, Ech, !sl2, !sl4, !so1, l32_low.
  assert (B0 : byteAt 0 bits = bits) by (unfold byteAt; change (256 ^ 0) with 1; rewrite Z.div_1_r; apply Z.mod_small; lia).
  assert (B1 : byteAt 0 ch = ch) by (unfold byteAt; change (256 ^ 0) with 1; rewrite Z.div_1_r; apply Z.mod_small; lia).
  rewrite B0, B1, <- !app_assoc. reflexivity.
Qed.
Print Assumptions C77_voc_layout.

(** ** Sample Vision files *)
(** Name and comment are blank; eight loops and eight markers, none of them in use; the note for the original pitch is middle C. *)
Definition smpLayout (rate total : Z) (audio bytes : list Z) : Prop :=
  zlen audio = 2 * total /\
  bytes = letters "SOUND SAMPLE DATA " ++ letters "2.1 " ++ zrepeat 32 60 ++ zrepeat 32 30 ++ l32 total ++ audio ++ l16 0 ++
    concat (repeat (l32 (2 ^ 32 - 1) ++ l32 0 ++ [0] ++ l16 0) 8) ++ concat (repeat (zrepeat 32 10 ++ l32 (2 ^ 32 - 1)) 8) ++ [60] ++ l32 rate ++ l32 0 ++ l32 0.
Theorem C77_samplevision_layout :
  forall (B : Build) rate, let fm := mkFmt rate TwosComp 16 1 LittleEndian CNone 1 2 in
  forall E c okF okE, library E c okF okE -> codecOf c fm ->
  forall (V : Type) (conv : V -> list Z) junk cap e0 (ws : list (list V)),
    okF junk -> okE e0 -> room c cap -> Forall okF (map conv (concat ws)) ->
    writesFile B c conv junk (SampleVision.smpUpdate rate) SampleVision.smpInit SampleVision.smpFirst cap e0 ws (smpLayout rate).
Proof.
  intros B rate fm E c okF okE HL HC V conv junk cap e0 ws Hj He Hro Hok.
  apply (written_file B E c okF okE fm HL HC); auto; [unfold SampleVision.smpFirst; lia|].
  intros d t T1 T2 T3 T4 L. change SampleVision.smpFirst with 116 in *.
  assert (Lh : forall n, zlen (SampleVision.smpPre ++ VOC.le4 n) = 116) by (intros; unfold VOC.le4; rewrite zlen_app, sampleBytes_zlen; reflexivity).
  unfold SampleVision.smpUpdate, fwrite, fseek. cbn [fbytes fpos]. unfold SampleVision.smpInit. rewrite <- (Lh 0) at 1. rewrite ow_at_end, <- app_assoc.
  change 112 with (zlen SampleVision.smpPre). rewrite ow_mid by (unfold VOC.le4; now rewrite !sampleBytes_zlen). rewrite T2, T4.
  set (n := zlen (concat ws)) in *.
  assert (EE : 116 + zlen d = zlen (SampleVision.smpPre ++ VOC.le4 n ++ d)) by (rewrite app_assoc, zlen_app, Lh; reflexivity).
  rewrite EE, ow_at_end, <- !app_assoc. split.
  { rewrite L. unfold audioBytes, packets. cbn [fm f_fpp f_bpp]. rewrite Z.div_1_r. lia. }
  unfold SampleVision.smpPre, SampleVision.smpTrailer, SampleVision.times8, SampleVision.smpLoop, SampleVision.smpMarker, VOC.le2, VOC.le4. rewrite !sl2, !sl4, !so1.
  change (2 ^ 32 - 1) with 4294967295. cbn [repeat concat]. rewrite !app_nil_r, <- !app_assoc. reflexivity.
Qed.
Print Assumptions C77_samplevision_layout.
