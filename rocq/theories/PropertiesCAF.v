(** * C37, C38, C57: CAF files *)
From Verif Require Import Prelude PreludeFacts ByteOrder G711 FileIO Reader ReaderSpec PropertiesReader.
From Verif Require Import Writer WriterSpec WriterProofs WriterHistory Codecs CodecsProofs PropertiesWriter PropertiesRoundTrip HeaderIO FileRoundTrip Chunks PropertiesTerminate Float FloatBits PacketTable PropertiesPacketTable CAF IMAProofs.

(** The formats whose files are modelled: signed integers of 1 to 32 bits, floats, doubles, in either byte order; G.711; IMA. *)
Inductive cafPCM (rate : spec_float) (o : order) (fm : cfmt) (sgn : bool) (n : nat) : Prop :=
| CP_int w ch : fm = mkFmt rate TwosComp w ch o CNone 1 (Z.of_nat n * ch) -> sgn = true -> 1 <= w <= 32 -> (w + 7) / 8 = Z.of_nat n -> 0 < ch -> Z.of_nat n * ch < 2 ^ 31 -> cafPCM rate o fm sgn n
| CP_float ch : fm = mkFmt rate Float 32 ch o CNone 1 (4 * ch) -> sgn = false -> n = 4%nat -> 0 < ch -> 4 * ch < 2 ^ 31 -> cafPCM rate o fm sgn n
| CP_double ch : fm = mkFmt rate Double 64 ch o CNone 1 (8 * ch) -> sgn = false -> n = 8%nat -> 0 < ch -> 8 * ch < 2 ^ 31 -> cafPCM rate o fm sgn n.
Inductive cafFmt (host : order) (rate : spec_float) (fm : cfmt) : Prop :=
| CF_pcm o sgn n : cafPCM rate o fm sgn n -> cafFmt host rate fm
| CF_ulaw ch : fm = mkFmt rate TwosComp 16 ch host CUlaw 1 ch -> 0 < ch < 2 ^ 31 -> cafFmt host rate fm
| CF_alaw ch : fm = mkFmt rate TwosComp 16 ch host CAlaw 1 ch -> 0 < ch < 2 ^ 31 -> cafFmt host rate fm
| CF_ima ch : fm = mkFmt rate TwosComp 16 ch host CIMA 64 (34 * ch) -> 0 < ch -> 34 * ch < 2 ^ 31 -> cafFmt host rate fm.

Lemma cafDesc_len fm : zlen (cafDesc fm) = 44.
Proof. unfold cafDesc, cafFields, be8, beU. destruct (f_comp fm); rewrite !zlen_app, !sampleBytes_zlen; reflexivity. Qed.
Lemma cafPre_len fm : zlen (cafPre fm) = 52.
Proof. unfold cafPre. rewrite zlen_app, cafDesc_len. reflexivity. Qed.
Lemma cafData_len d : zlen (cafData d) = 16.
Proof. unfold cafData, be8, beU. rewrite !zlen_app, !sampleBytes_zlen. reflexivity. Qed.

(** The description of a supported format is understood. *)
Lemma caf_desc_ok host rate fm : cafFmt host rate fm ->
  forall id flags bpp fpp bits, cafFields fm = (id, flags, bpp, fpp, bits) ->
  zlen id = 4 /\ 0 <= flags < 4294967296 /\ 0 <= bits < 4294967296 /\ 0 < f_chan fm < 2147483648 /\ f_rate fm = rate /\
  forall s f, cafDescTail host s rate id flags bpp fpp (f_chan fm) bits f = Ok (Some (cafSetFmt s fm, f)).
Proof.
  assert (SS : forall x, 0 <= x < 2147483648 -> s32 x = x) by (intros x Hx; unfold s32; apply sN_small; [lia|change (2 ^ (32 - 1)) with 2147483648; lia]).
  assert (BP : forall w n ch, 1 <= w <= 64 -> (w + 7) / 8 = n -> 0 < ch -> n * ch < 2 ^ 31 -> bppPCM w ch = Ok (n * ch)).
  { intros w n ch Hw <- Hc Hs. now apply bppPCM_ok. }
  intros Hf id flags bpp fpp bits.
  destruct Hf as [o sgn n Hp|ch -> Hc|ch -> Hc|ch -> Hc Hs]; [destruct Hp as [w ch -> -> Hw En Hc Hs|ch -> -> -> Hc Hs|ch -> -> -> Hc Hs]| | |];
    cbn [cafFields f_comp f_sf f_width f_chan f_order f_bpp f_fpp]; intros [= <- <- <- <- <-];
    change (2 ^ 31) with 2147483648 in *; cbn [f_chan f_rate]; (split; [reflexivity|]).
  - assert (0 < Z.of_nat n) by lia. assert (ch <= Z.of_nat n * ch) by nia.
    split; [destruct o; lia|]. split; [lia|]. split; [lia|]. split; [reflexivity|]. intros s f. unfold cafDescTail. replace (ch =? 0) with false by lia. rewrite !SS by lia.
    change (teq T_lpcm T_lpcm) with true. cbv iota zeta. change (Z.testbit _ 0) with (Z.odd ((match o with LittleEndian => 2 | BigEndian => 0 end) + 0)).
    replace (Z.testbit _ 1) with (match o with LittleEndian => true | BigEndian => false end) by (destruct o; reflexivity).
    replace (Z.odd _) with false by (destruct o; reflexivity). replace ((w <? 1) || (32 <? w)) with false by lia.
    unfold hbind, hlift. rewrite (BP w (Z.of_nat n) ch) by (auto; lia). cbn [rbind]. destruct o; reflexivity.
  - split; [destruct o; lia|]. split; [lia|]. split; [lia|]. split; [reflexivity|]. intros s f. unfold cafDescTail. replace (ch =? 0) with false by lia. rewrite !SS by lia.
    unfold hbind, hlift. rewrite (BP 32 4 ch) by (auto; lia). destruct o; reflexivity.
  - split; [destruct o; lia|]. split; [lia|]. split; [lia|]. split; [reflexivity|]. intros s f. unfold cafDescTail. replace (ch =? 0) with false by lia. rewrite !SS by lia.
    unfold hbind, hlift. rewrite (BP 64 8 ch) by (auto; lia). destruct o; reflexivity.
  - split; [lia|]. split; [lia|]. split; [lia|]. split; [reflexivity|]. intros s f. unfold cafDescTail. replace (ch =? 0) with false by lia. rewrite !SS by lia. reflexivity.
  - split; [lia|]. split; [lia|]. split; [lia|]. split; [reflexivity|]. intros s f. unfold cafDescTail. replace (ch =? 0) with false by lia. rewrite !SS by lia. reflexivity.
  - split; [lia|]. split; [lia|]. split; [lia|]. split; [reflexivity|]. intros s f. unfold cafDescTail. replace (ch =? 0) with false by lia. rewrite !SS by lia.
    unfold hbind, hlift, ck32, inS. change (2 ^ (32 - 1)) with 2147483648. change (teq T_ima4 T_lpcm) with false. change (teq T_ima4 T_ulaw) with false. change (teq T_ima4 T_alaw) with false. change (teq T_ima4 T_ima4) with true. cbv iota.
    replace ((- (2147483648) <=? 34 * ch) && (34 * ch <? 2147483648)) with true by lia. cbn [rbind]. unfold u64. rewrite uN_small by (change (2 ^ 64) with 18446744073709551616; lia). reflexivity.
Qed.

(** ** The layout of the file *)
Definition cafFront (fm : cfmt) (limit : Z) (b : list Z) : Prop := exists mid rest, zlen mid = 16 /\ b = cafPre fm ++ mid ++ rest /\ zlen b <= limit.
Lemma caf_updated fm f t mid rest : zlen mid = 16 -> fbytes f = cafPre fm ++ mid ++ rest ->
  fbytes (cafUpdate f t) = cafPre fm ++ cafData (w_dsize t + 4) ++ rest.
Proof.
  intros Lm E. unfold cafUpdate, fwrite, fseek. cbn [fbytes fpos]. rewrite E, <- (cafPre_len fm). apply ow_mid. now rewrite cafData_len.
Qed.
Lemma caf_front fm size bpf : 0 <= size -> frontOK (cafFront fm (cafFirst + size)) (cafInit fm) cafFirst (cafFirst + size) bpf cafUpdate.
Proof.
  intros Hs. unfold cafFirst. split.
  - intros b p d Hp Hd (mid & rest & Lm & E & Lb). exists mid, (overwrite rest (p - 68) d). split; [exact Lm|]. split.
    + rewrite E, app_assoc. assert (L : zlen (cafPre fm ++ mid) = 68) by (rewrite zlen_app, Lm, cafPre_len; reflexivity). rewrite ow_past by lia. rewrite L, <- app_assoc. reflexivity.
    + destruct d as [|y d]; [exact Lb|]. rewrite ow_len by (try discriminate; lia). lia.
  - intros f t H1 H2 _ H3 (mid & rest & Lm & E & Lb). exists (cafData (w_dsize t + 4)), rest. split; [apply cafData_len|].
    rewrite (caf_updated fm f t mid rest Lm E). split; [reflexivity|]. rewrite E, !zlen_app in Lb. rewrite !zlen_app, cafData_len. lia.
  - exists (cafData (-1)), []. split; [apply cafData_len|]. split; [unfold cafInit; now rewrite app_nil_r|]. unfold cafInit. rewrite zlen_app, cafData_len, cafPre_len. lia.
Qed.
Lemma caf_updKeeps : updKeeps cafUpdate cafFirst.
Proof.
  intros f t Hf. unfold cafUpdate, fwrite, fseek. cbn [fbytes fpos]. unfold cafFirst in *.
  destruct (Z.lt_ge_cases (w_after t - 68) 0) as [Hn|Hn]; [unfold region; rewrite !zfirstn_0 by lia; reflexivity|].
  apply ow_region_after'; [lia| |exact Hn]. rewrite cafData_len. lia.
Qed.
Lemma caf_keeps limit bpf : keepsFor cafUpdate cafFirst limit bpf.
Proof. apply updKeeps_for. exact caf_updKeeps. Qed.

(** ** Reading *)
Lemma st_needTag {A} b p tag rest (k : list Z -> hP A) : 0 <= p -> zskipn p b = tag ++ rest -> zlen tag = 4 ->
  hbind needTag k (mkFile b p) = k tag (mkFile b (p + 4)) /\ zskipn (p + 4) b = rest.
Proof.
  intros Hp H L. split; [|rewrite <- L; now apply (skip_field b p tag rest)]. unfold hbind, needTag, fread. cbn [fbytes fpos]. rewrite H, <- L, zfirstn_exact, Z.eqb_refl. rewrite L. reflexivity.
Qed.
Lemma hbind_assoc {A C D} (p : hP A) (q : A -> hP C) (k : C -> hP D) f : hbind (hbind p q) k f = hbind p (fun a => hbind (q a) k) f.
Proof. unfold hbind. destruct (p f) as [[[a f']|]| | |]; reflexivity. Qed.
Lemma st_lseek {A} n f (k : Z -> hP A) : 0 <= n -> hbind (lseek n) k f = k n (mkFile (fbytes f) n).
Proof. intros H. unfold hbind, lseek. replace (n <? 0) with false by lia. reflexivity. Qed.
Ltac htag H := 
  match type of H with zskipn ?p ?b = ?tag ++ ?rest =>
    let E := fresh in
    match goal with |- context [hbind needTag ?k (mkFile b p)] => pose proof (st_needTag b p tag rest k ltac:(lia) H ltac:(first [reflexivity|assumption])) as [E H'] end;
    rewrite E; clear E H; rename H' into H; cbv beta end.

Lemma caf_read_header (B : Build) host rate fm dsize b rest fuel : cafFmt host rate fm -> validD rate = true ->
  b = cafPre fm ++ cafData (dsize + 4) ++ rest -> zlen b = 68 + dsize -> 0 <= dsize < 2 ^ 62 -> (2 <= fuel)%nat ->
  exists f', cafOpen host fuel (mkFile b 0) = Ok (Some (mkParsed fm 68 dsize (computeTotal 0 dsize fm), f')).
Proof.
  intros Hf Hr Eb Lb Hd Hfu. change (2 ^ 62) with 4611686018427387904 in *. destruct (bits64_round rate Hr) as [Rb Er]. change (2 ^ 64) with 18446744073709551616 in Rb.
  destruct (cafFields fm) as [[[[id flags] bpp] fpp] bits] eqn:EF. destruct (caf_desc_ok host rate fm Hf id flags bpp fpp bits EF) as (Lid & Hfl & Hbi & Hch & Erate & RT).
  assert (H : zskipn 8 b = T_desc ++ be8 32 ++ be8 (bits64 rate) ++ id ++ beU flags ++ beU bpp ++ beU fpp ++ beU (f_chan fm) ++ beU bits ++ T_data ++ be8 (dsize + 4) ++ beU 0 ++ rest).
  { rewrite Eb. unfold cafPre, cafDesc. rewrite EF, Erate. rewrite <- !app_assoc. exact (zskipn_exact cafMagic _). }
  clear Eb. unfold be8, beU in H. unfold cafOpen, cafRead. 
  rewrite hbind_assoc, st_seek, hbind_assoc, st_tell, hbind_assoc, st_length. cbn [fbytes fpos]. unfold flength. cbn [fbytes].
  destruct fuel as [|[|fuel]]; [lia|lia|]. cbn [cafLoop]. replace (8 <? zlen b) with true by lia. cbn [negb]. cbv iota.
  rewrite hbind_assoc. htag H. rewrite hbind_assoc. hstep H. change (8 * Z.of_nat 8) with 64. change (2 ^ 64) with 18446744073709551616. rewrite (Z.mod_small 32) by lia.
  change (s64 32) with 32. change (cafLength (zlen b) (8 + 12) T_desc 32) with 32. change (cafChunk host cafSt0 T_desc 32) with (cafParseDesc host cafSt0).
  unfold cafParseDesc. rewrite !hbind_assoc. hstep H. rewrite !hbind_assoc. htag H. do 5 (rewrite !hbind_assoc; hstep H).
  change (8 * Z.of_nat 8) with 64. change (8 * Z.of_nat 4) with 32. change (2 ^ 64) with 18446744073709551616. change (2 ^ 32) with 4294967296.
  rewrite (Z.mod_small (bits64 rate)), (Z.mod_small flags), (Z.mod_small (f_chan fm)), (Z.mod_small bits) by lia. rewrite Er.
  assert (RT' : forall bpp' fpp' f, cafDescTail host cafSt0 rate id flags bpp' fpp' (f_chan fm) bits f = cafDescTail host cafSt0 rate id flags bpp fpp (f_chan fm) bits f).
  { intros. destruct Hf as [? ? ? Hp|? ->|? ->|? ->]; [destruct Hp; subst fm|..]; cbn [cafFields f_comp] in EF; inversion EF; subst; reflexivity. }
  unfold hbind at 1. rewrite RT', RT. clear RT RT'. cbn [rbind].
  change (hlift (ck64 (8 + 12 + 32))) with (hret 52). rewrite hbind_assoc, st_ret, hbind_assoc, st_lseek by lia. cbn [fbytes].
  change (8 + 4 + Z.of_nat 8 + Z.of_nat 8 + 4 + Z.of_nat 4 + Z.of_nat 4 + Z.of_nat 4 + Z.of_nat 4 + Z.of_nat 4) with 52 in H.
  cbn [cafLoop]. replace (52 <? zlen b) with true by lia. cbn [negb]. cbv iota.
  rewrite hbind_assoc. htag H. rewrite hbind_assoc. hstep H. change (8 * Z.of_nat 8) with 64. change (2 ^ 64) with 18446744073709551616. rewrite (Z.mod_small (dsize + 4)) by lia.
  unfold s64. rewrite sN_small by (change (2 ^ (64 - 1)) with 9223372036854775808; lia).
  unfold cafLength. change (teq T_data T_data) with true. replace (dsize + 4 =? -1) with false by lia. cbn [andb]. cbv iota.
  change (cafChunk host ?s T_data ?l) with (cafParseData s l). unfold cafParseData. rewrite !hbind_assoc. hstep H. rewrite hbind_assoc, st_tell, hbind_assoc, st_length. 
  replace (dsize + 4 =? -1) with false by lia. cbv iota. unfold ck64, inS. change (2 ^ (64 - 1)) with 9223372036854775808.
  replace ((- (9223372036854775808) <=? dsize + 4 - 4) && (dsize + 4 - 4 <? 9223372036854775808)) with true by lia.
  replace ((- (9223372036854775808) <=? 52 + 12 + (dsize + 4)) && (52 + 12 + (dsize + 4) <? 9223372036854775808)) with true by lia.
  change (hlift (Ok ?x)) with (hret x). rewrite hbind_assoc, st_ret. cbn [cs_fmt cafSetFmt cafSt0]. rewrite st_ret. rewrite hbind_assoc, st_ret.
  rewrite hbind_assoc, st_lseek by lia. destruct fuel; cbn [cafLoop]; replace (52 + 12 + (dsize + 4) <? zlen b) with false by lia; cbn [negb]; cbv iota;
  rewrite st_ret; cbn [cs_total fpos]; replace (dsize + 4 - 4) with dsize by lia; eexists; reflexivity.
Qed.

(** *** C37 *)
Definition cafReopens {F W} (B : Build) (host : order) (bytes : list Z) (r : codec F) (back : F -> W) (fm : cfmt) (total : Z) (frames : list W) : Prop :=
  cafRecognize (mkFile bytes 0) = true /\
  (forall fuel, (2 <= fuel)%nat -> exists f', cafOpen host fuel (mkFile bytes 0) = Ok (Some (mkParsed fm 68 (f_bpp fm * total) total, f'))) /\
  readsAs B r back bytes 68 total frames.

Lemma caf_conclude {F W} (B : Build) host rate (fm : cfmt) (r : codec F) (back : F -> W) bpf total frames f0 (st_file : file) t :
  cafFmt host rate fm -> validD rate = true -> f_fpp fm = 1 ->
  0 < bpf -> 0 <= total -> bpf * total < 2 ^ 62 -> f_bpp fm = bpf ->
  st_file = cafUpdate f0 t -> w_dsize t = bpf * total -> cafFront fm (cafFirst + bpf * total) (fbytes f0) ->
  (total <> 0 -> cafFirst + bpf * total <= zlen (fbytes st_file)) ->
  (cafFirst <= zlen (fbytes st_file) -> readsAs B r back (fbytes st_file) cafFirst total frames) ->
  cafReopens B host (fbytes st_file) r back fm total frames.
Proof.
  intros Hf Hr Hfp Pb Ht Hs Eb -> T2 (mid & rest & Lm & E & Lb) Fit RD. unfold cafFirst in *. assert (0 <= bpf * total) by nia.
  pose proof (caf_updated fm f0 t mid rest Lm E) as EU. rewrite T2 in EU. set (b := fbytes (cafUpdate f0 t)) in *. clearbody b.
  assert (L0 : zlen b = 68 + zlen rest) by (rewrite EU, !zlen_app, cafPre_len, cafData_len; lia).
  assert (L1 : zlen b <= 68 + bpf * total) by (rewrite E, !zlen_app, cafPre_len, Lm in Lb; lia).
  assert (Lz : zlen b = 68 + bpf * total).
  { destruct (Z.eq_dec total 0) as [->|Hn]; [|specialize (Fit Hn); lia]. pose proof (zlen_nonneg rest). lia. }
  split; [rewrite EU; unfold cafPre; rewrite <- !app_assoc; reflexivity|]. split; [|apply RD; lia].
  intros fuel Hfu. destruct (caf_read_header B host rate fm (bpf * total) b rest fuel Hf Hr EU Lz ltac:(lia) Hfu) as (f' & RH).
  exists f'. rewrite RH, Eb. rewrite (computeTotal_exact bpf total fm) by auto. reflexivity.
Qed.

(** Uncompressed files below 2 GiB. *)
Theorem C37_caf_pcm_roundtrip_partial :
  forall (B : Build) host rate o fm sgn n, cafPCM rate o fm sgn n -> validD rate = true ->
  forall (V W : Type) (conv : V -> list Z) (back : list Z -> W) junk cap (ops : list wop),
    let ch := f_chan fm in let bpf := Z.of_nat n * ch in
    zlen junk = ch -> spaced false (ops ++ [Sync]) ->
    Forall (fun v => frameOf ch (fits sgn n) (conv v)) (written ops) ->
    68 + bpf * zlen (written ops) < 2 ^ 31 ->
    exists st, wrun (pcmW o n ch) conv junk true cafUpdate (openWrite (pcmW o n ch) (cafInit fm) cafFirst cap tt) (ops ++ [Sync]) = Ok st /\
      cafReopens B host (fbytes (ws_file st)) (pcmR o sgn n ch) back fm (zlen (written ops)) (map (fun v => back (conv v)) (written ops)).
Proof.
  intros B host rate o fm sgn n Hp Hr V W conv back junk cap ops ch bpf Hj Hsp Hok Hs.
  pose proof (zlen_nonneg (written ops)) as Zt. set (total := zlen (written ops)) in *. change (2 ^ 31) with 2147483648 in Hs.
  assert (K : (1 <= n)%nat /\ 0 < ch /\ f_fpp fm = 1 /\ f_bpp fm = bpf).
  { unfold bpf, ch. destruct Hp as [w c -> _ Hw En Hc _|c -> _ -> Hc _|c -> _ -> Hc _]; cbn [f_fpp f_bpp f_chan]; repeat split; lia. }
  destruct K as (Hn & Hc & E1 & E2). assert (Pb : 0 < bpf) by (unfold bpf; nia).
  destruct (pcm_file (W := W) B o sgn n ch Hn Hc conv back junk cafUpdate (cafInit fm) cafFirst cap ops Hj ltac:(unfold cafFirst; lia)
      (caf_keeps _ _) _ (caf_front fm (bpf * total) _ ltac:(nia)) Hsp Hok ltac:(unfold cafFirst; exact Hs))
      as (st & f0 & R & Ef & HF & T0 & T1 & T2 & T3 & Fit & RD).
  exists st. split; [exact R|]. fold bpf total in T2, RD, Fit.
  apply (caf_conclude B host rate fm _ back bpf total _ f0 (ws_file st) (ws_track st)); auto.
  - econstructor; eauto.
  - change (2 ^ 62) with 4611686018427387904. lia.
  - intros Hne. apply Fit. intros E. apply Hne. unfold total. rewrite E. reflexivity.
Qed.
Print Assumptions C37_caf_pcm_roundtrip_partial.

(** G.711. *)
Theorem C37_caf_g711_roundtrip_partial :
  forall (B : Build) host rate ch, 0 < ch < 2 ^ 31 -> validD rate = true ->
  forall (V W : Type) (conv : V -> list Z) (back : list Z -> W) junk cap (ops : list wop),
    let fm c := mkFmt rate TwosComp 16 ch host c 1 ch in
    zlen junk = ch -> spaced false (ops ++ [Sync]) -> Forall (fun v => zlen (conv v) = ch) (written ops) ->
    ch * zlen (written ops) < 2 ^ 62 ->
    (exists st, wrun (ulawW ch) conv junk true cafUpdate (openWrite (ulawW ch) (cafInit (fm CUlaw)) cafFirst cap tt) (ops ++ [Sync]) = Ok st /\
      cafReopens B host (fbytes (ws_file st)) (ulawR ch) back (fm CUlaw) (zlen (written ops)) (map (fun v => back (map (fun x => ulaw2linear (linear2ulaw x)) (conv v))) (written ops))) /\
    (exists st, wrun (alawW ch) conv junk true cafUpdate (openWrite (alawW ch) (cafInit (fm CAlaw)) cafFirst cap tt) (ops ++ [Sync]) = Ok st /\
      cafReopens B host (fbytes (ws_file st)) (alawR ch) back (fm CAlaw) (zlen (written ops)) (map (fun v => back (map (fun x => alaw2linear (linear2alaw x)) (conv v))) (written ops))).
Proof.
  intros B host rate ch Hc Hr V W conv back junk cap ops fm Hj Hsp Hok Hs. pose proof (zlen_nonneg (written ops)) as Zt. set (total := zlen (written ops)) in *.
  split.
  - destruct (ulaw_file (W := W) B ch ltac:(lia) conv back junk cafUpdate (cafInit (fm CUlaw)) cafFirst cap ops Hj ltac:(unfold cafFirst; lia)
      (caf_keeps _ _) _ (caf_front (fm CUlaw) (ch * total) _ ltac:(nia)) Hsp Hok)
      as (st & f0 & R & Ef & HF & T0 & T1 & T2 & T3 & Fit & RD).
    exists st. split; [exact R|]. fold total in T2, RD, Fit.
    apply (caf_conclude B host rate (fm CUlaw) _ back ch total _ f0 (ws_file st) (ws_track st)); auto; try lia.
    + apply (CF_ulaw host rate _ ch eq_refl Hc).
    + intros Hne. apply Fit. intros E. apply Hne. unfold total. rewrite E. reflexivity.
  - destruct (alaw_file (W := W) B ch ltac:(lia) conv back junk cafUpdate (cafInit (fm CAlaw)) cafFirst cap ops Hj ltac:(unfold cafFirst; lia)
      (caf_keeps _ _) _ (caf_front (fm CAlaw) (ch * total) _ ltac:(nia)) Hsp Hok)
      as (st & f0 & R & Ef & HF & T0 & T1 & T2 & T3 & Fit & RD).
    exists st. split; [exact R|]. fold total in T2, RD, Fit.
    apply (caf_conclude B host rate (fm CAlaw) _ back ch total _ f0 (ws_file st) (ws_track st)); auto; try lia.
    + apply (CF_alaw host rate _ ch eq_refl Hc).
    + intros Hne. apply Fit. intros E. apply Hne. unfold total. rewrite E. reflexivity.
Qed.
Print Assumptions C37_caf_g711_roundtrip_partial.

Definition cafRate := dOfZ 44100.
Example C37_example :
  validD cafRate = true /\ cafPCM cafRate LittleEndian (mkFmt cafRate TwosComp 20 2 LittleEndian CNone 1 6) true 3 /\
  forall B : Build, exists st f', let fm := mkFmt cafRate TwosComp 20 2 LittleEndian CNone 1 6 in
    wrun (pcmW LittleEndian 3 2) (fun x => x) [0; 0] true cafUpdate (openWrite (pcmW LittleEndian 3 2) (cafInit fm) cafFirst 1024 tt) [Write [[1; 2]; [3; -4]]; Sync; Write [[5; 6]]; Sync] = Ok st /\
    zskipn 52 (fbytes (ws_file st)) = [100;97;116;97; 0;0;0;0;0;0;0;22; 0;0;0;0; 1;0;0; 2;0;0; 3;0;0; 252;255;255; 5;0;0; 6;0;0] /\
    cafOpen LittleEndian 2 (mkFile (fbytes (ws_file st)) 0) = Ok (Some (mkParsed fm 68 18 3, f')).
Proof.
  split; [vm_compute; reflexivity|]. split; [apply (CP_int _ _ _ _ _ 20 2); [reflexivity|reflexivity|lia|reflexivity|lia|change (2 ^ 31) with 2147483648; lia]|].
  intros B. do 2 eexists. cbv zeta. split; [vm_compute; reflexivity|]. split; vm_compute; reflexivity.
Qed.

(** IMA: nothing in the file says how many of the last block's 64 frames are real; 100 frames read back as 128. *)
Theorem C37_caf_ima_frame_count_refuted :
  forall B : Build, exists f', let fm := mkFmt cafRate TwosComp 16 1 LittleEndian CIMA 64 34 in
    cafOpen LittleEndian 2 (mkFile (cafPre fm ++ cafData (68 + 4) ++ zrepeat 0 68) 0) = Ok (Some (mkParsed fm 68 68 128, f')).
Proof. intros B. eexists. cbv zeta. vm_compute. reflexivity. Qed.
Print Assumptions C37_caf_ima_frame_count_refuted.

(** ** C38 *)
Lemma tame_needTag : tame needTag.
Proof. intros f. unfold needTag, fread. destruct (_ =? 4); (split; [discriminate|]); [intros ? ? [= _ <-]; reflexivity|discriminate]. Qed.
Lemma tame_ck64 x : tame (hlift (ck64 x)). Proof. apply tame_lift. unfold ck64. destruct (inS 64 x); discriminate. Qed.
Lemma tame_ck32 x : tame (hlift (ck32 x)). Proof. apply tame_lift. unfold ck32. destruct (inS 32 x); discriminate. Qed.
Lemma tame_abort {A} : tame (fun _ => Abort : res (option (A * file))). Proof. intros f. split; discriminate. Qed.
Lemma tame_tableLoop data : tame (hlift (tableLoop (S (length data)) data 0 [])).
Proof. apply tame_lift. destruct (C39_table_reading_safe data) as [s E]. rewrite E. discriminate. Qed.
Lemma tame_pakt {B : Build} n : tame (paktParse n).
Proof. unfold paktParse. tame_with ltac:(apply tame_tableLoop). Qed.
Lemma cafChunk_tame {B : Build} host s tag n : tame (cafChunk host s tag n).
Proof.
  unfold cafChunk, cafParseDesc, cafParseData, cafParsePakt, cafParseCookie, cafDescTail.
  tame_with ltac:(first [apply tame_needTag | apply tame_bppPCM | apply tame_ck32 | apply tame_pakt | apply tame_abort | apply tame_lift; unfold ck64; destruct (_ =? -1); [discriminate|destruct (inS 64 _); discriminate]]).
Qed.

(** What the file says at offset [i]: a tag and a signed 64-bit length. *)
Definition cafTag (b : list Z) (i : Z) : list Z := zfirstn 4 (zskipn i b).
Definition cafLen (b : list Z) (i : Z) : Z := s64 (be_val (zfirstn 8 (zskipn (i + 4) b))).
(** The offsets where chunks begin: 8, and after each chunk (the length -1 of a data chunk stands for the rest of the file). *)
Definition restOfFile (b : list Z) (i : Z) : Prop := cafTag b i = T_data /\ cafLen b i = -1.
Inductive cafWalk (b : list Z) : Z -> Prop :=
| CW_start : cafWalk b 8
| CW_next i : cafWalk b i -> i + 12 <= zlen b -> ~ restOfFile b i -> cafWalk b (i + 12 + cafLen b i).

Lemma at_needTag {A} b p (k : list Z -> hP A) : 0 <= p -> p + 4 <= zlen b -> hbind needTag k (mkFile b p) = k (zfirstn 4 (zskipn p b)) (mkFile b (p + 4)).
Proof. intros Hp Hl. unfold hbind, needTag, fread. cbn [fbytes fpos rbind]. rewrite at_zlen by lia. reflexivity. Qed.
Lemma short_needTag {A} b p (k : list Z -> hP A) : 0 <= p -> zlen b < p + 4 -> hbind needTag k (mkFile b p) = Ok None.
Proof. intros Hp Hl. unfold hbind, needTag, fread. cbn [fbytes fpos rbind]. rewrite zlen_firstn, zlen_skipn by lia. replace (Z.min 4 (Z.max 0 (zlen b - p)) =? 4) with false by lia. reflexivity. Qed.
Lemma caf_loop_step {B : Build} host fuel b i s : 0 <= i -> i < zlen b ->
  (zlen b < i + 12 -> cafLoop host (S fuel) (zlen b) i s (mkFile b i) = Ok None) /\
  (i + 12 <= zlen b -> cafLoop host (S fuel) (zlen b) i s (mkFile b i) =
    (let! s := cafChunk host s (cafTag b i) (cafLength (zlen b) (i + 12) (cafTag b i) (cafLen b i)) in
     let! target := hlift (ck64 (i + 12 + cafLength (zlen b) (i + 12) (cafTag b i) (cafLen b i))) in
     let! cur := lseek target in cafLoop host fuel (zlen b) cur s) (mkFile b (i + 12))).
Proof.
  intros Hi Hl. cbn [cafLoop]. replace (i <? zlen b) with true by lia. cbn [negb]. cbv iota. split; intros H.
  - destruct (Z.lt_ge_cases (zlen b) (i + 4)) as [H4|H4]; [rewrite short_needTag by lia; reflexivity|]. rewrite at_needTag by lia.
    rewrite short_needU by (try lia; change (Z.of_nat 8) with 8; lia). reflexivity.
  - rewrite at_needTag by lia. rewrite at_needU by (try lia; change (Z.of_nat 8) with 8; lia). change (Z.of_nat 8) with 8. fold (cafTag b i).
    change (s64 (valueOf BigEndian (zfirstn 8 (zskipn (i + 4) b)))) with (cafLen b i). replace (i + 4 + 8) with (i + 12) by lia. reflexivity.
Qed.

Lemma cafLength_rest b i : i + 12 <= zlen b -> restOfFile b i -> cafLength (zlen b) (i + 12) (cafTag b i) (cafLen b i) = zlen b - (i + 12).
Proof. intros _ [E1 E2]. unfold cafLength. rewrite E1, E2. reflexivity. Qed.
Lemma cafLength_other b i : ~ restOfFile b i -> cafLength (zlen b) (i + 12) (cafTag b i) (cafLen b i) = cafLen b i.
Proof.
  intros H. unfold cafLength. destruct (teq (cafTag b i) T_data) eqn:E; [|reflexivity]. destruct (cafLen b i =? -1) eqn:E2; [|reflexivity].
  exfalso. apply H. split; [|lia]. unfold teq in E. destruct (list_eq_dec Z.eq_dec (cafTag b i) T_data); congruence.
Qed.
Lemma restOfFile_dec b i : {restOfFile b i} + {~ restOfFile b i}.
Proof. unfold restOfFile. destruct (list_eq_dec Z.eq_dec (cafTag b i) T_data); [destruct (Z.eq_dec (cafLen b i) (-1))|]; [left; auto|right; tauto|right; tauto]. Qed.

(** A CAF file opens in finitely many steps unless the walk over its chunks comes to a negative length. *)
Theorem C38_caf_terminates_partial :
  forall (B : Build) host b,
    (forall i, cafWalk b i -> i + 12 <= zlen b -> restOfFile b i \/ 0 <= cafLen b i) ->
    forall fuel, zlen b <= 12 * Z.of_nat fuel -> cafOpen host fuel (mkFile b 0) <> OutOfFuel.
Proof.
  intros B host b H fuel Hf.
  assert (G : forall fuel i s, 0 <= i -> cafWalk b i \/ zlen b <= i -> zlen b - i <= 12 * Z.of_nat fuel -> cafLoop host fuel (zlen b) i s (mkFile b i) <> OutOfFuel).
  { clear fuel Hf. induction fuel as [|fuel IH]; intros i s Hi W Hl; [cbn [cafLoop]; replace (i <? zlen b) with false by lia; discriminate|].
    destruct (Z.lt_ge_cases i (zlen b)) as [Hlt|Hge]; [|cbn [cafLoop]; replace (i <? zlen b) with false by lia; discriminate].
    destruct W as [W|W]; [|lia]. destruct (caf_loop_step host fuel b i s Hi Hlt) as [S1 S2].
    destruct (Z.lt_ge_cases (zlen b) (i + 12)) as [Hs|Hs]; [rewrite S1 by exact Hs; discriminate|]. rewrite S2 by exact Hs. clear S1 S2.
    set (l := cafLength (zlen b) (i + 12) (cafTag b i) (cafLen b i)).
    assert (P : 0 <= l /\ (cafWalk b (i + 12 + l) \/ zlen b <= i + 12 + l)).
    { unfold l. destruct (restOfFile_dec b i) as [D|D].
      - rewrite cafLength_rest by assumption. split; [lia|right; lia].
      - rewrite cafLength_other by assumption. destruct (H i W Hs) as [?|P0]; [tauto|]. split; [exact P0|]. left. now apply CW_next. }
    destruct P as [P0 P1]. unfold hbind at 1. destruct (cafChunk_tame host s (cafTag b i) l (mkFile b (i + 12))) as [T1 T2].
    destruct (cafChunk _ _ _ _ _) as [[[s' f']|]| | |]; cbn [rbind]; try discriminate; [|congruence]. specialize (T2 _ _ eq_refl). cbn [fbytes] in T2.
    unfold hbind at 1, hlift, ck64. destruct (inS 64 _); cbn [rbind]; [|discriminate]. rewrite st_lseek by lia. rewrite T2. apply IH; [lia|exact P1|lia]. }
  unfold cafOpen, cafRead. rewrite hbind_assoc, st_seek, hbind_assoc, st_tell, hbind_assoc, st_length. cbn [fbytes fpos]. unfold flength. cbn [fbytes].
  specialize (G fuel 8 cafSt0 ltac:(lia) (or_introl (CW_start b)) ltac:(lia)). unfold hbind. destruct (cafLoop _ _ _ _ _ _) as [[[s' f']|]| | |]; cbn [rbind]; try discriminate; [|congruence].
  unfold hlift, cafParsed. destruct (cs_fmt s'); discriminate.
Qed.
Print Assumptions C38_caf_terminates_partial.

(** A chunk of length -12 sends the walk back to where it was. *)
Definition cafLoopFile : list Z := cafMagic ++ [88;88;88;88] ++ be8 (-12).
Theorem C38_caf_loops_refuted :
  forall (B : Build) host fuel, cafOpen host fuel (mkFile cafLoopFile 0) = OutOfFuel.
Proof.
  intros B host fuel.
  assert (L : cafLoop host fuel 20 8 cafSt0 (mkFile cafLoopFile 8) = OutOfFuel).
  { induction fuel as [|fuel IH]; [reflexivity|]. destruct (caf_loop_step host fuel cafLoopFile 8 cafSt0 ltac:(lia) ltac:(reflexivity)) as [_ S2].
    change (zlen cafLoopFile) with 20 in S2. rewrite S2 by lia. change (cafTag cafLoopFile 8) with [88;88;88;88]. change (cafLen cafLoopFile 8) with (-12).
    change (cafChunk host cafSt0 [88;88;88;88] _) with (hret cafSt0). rewrite st_ret. change (hlift (ck64 _)) with (hret 8). rewrite st_ret, st_lseek by lia. exact IH. }
  unfold cafOpen, cafRead. rewrite hbind_assoc, st_seek, hbind_assoc, st_tell, hbind_assoc, st_length. cbn [fbytes fpos]. unfold flength. cbn [fbytes]. change (zlen cafLoopFile) with 20.
  unfold hbind. rewrite L. reflexivity.
Qed.
Print Assumptions C38_caf_loops_refuted.

(** ** C57 *)
(** No description; data before the description. *)
Theorem C57_caf_without_desc_refuted :
  forall (B : Build) host, cafOpen host 9 (mkFile cafMagic 0) = UB /\ cafOpen host 9 (mkFile (cafMagic ++ cafData 4) 0) = UB.
Proof. intros B host. split; vm_compute; reflexivity. Qed.
Print Assumptions C57_caf_without_desc_refuted.
(** A chunk length near 2^63: the offset of the next chunk overflows. *)
Theorem C57_caf_length_overflow_refuted :
  forall (B : Build) host, cafOpen host 9 (mkFile (cafMagic ++ [88;88;88;88] ++ be8 (2 ^ 63 - 1)) 0) = UB.
Proof. intros B host. vm_compute. reflexivity. Qed.
Print Assumptions C57_caf_length_overflow_refuted.
(** A cookie of negative length: an uncaught exception. *)
Theorem C57_caf_cookie_refuted :
  forall (B : Build) host, cafOpen host 9 (mkFile (cafMagic ++ T_kuki ++ be8 (-5)) 0) = Abort.
Proof. intros B host. vm_compute. reflexivity. Qed.
Print Assumptions C57_caf_cookie_refuted.
(** Too many channels: the frame size overflows an int. *)
Theorem C57_caf_channels_refuted :
  forall (B : Build) host, cafOpen host 9 (mkFile (cafMagic ++ cafDesc (mkFmt cafRate TwosComp 16 (2 ^ 30) BigEndian CNone 1 2)) 0) = UB.
Proof. intros B host. vm_compute. reflexivity. Qed.
Print Assumptions C57_caf_channels_refuted.

(** Otherwise opening is defined: a description first, fewer than 2^24 channels, lengths from 0 to 2^62, assertions compiled out. *)
Definition formatKnown (s : cafSt) : Prop := cs_fmt s <> None.
Lemma caf_desc_defined host s rate id flags bpp fpp chan bits f : 0 <= chan < 2 ^ 24 -> 0 <= bits ->
  cafDescTail host s rate id flags bpp fpp chan bits f = Ok None \/ exists s', cafDescTail host s rate id flags bpp fpp chan bits f = Ok (Some (s', f)) /\ formatKnown s'.
Proof.
  intros Hc Hb. change (2 ^ 24) with 16777216 in *. unfold cafDescTail.
  assert (SS : s32 chan = chan) by (unfold s32; apply sN_small; [lia|change (2 ^ (32 - 1)) with 2147483648; lia]). rewrite SS.
  assert (BP : forall w, 1 <= w <= 64 -> bppPCM w chan = Ok ((w + 7) / 8 * chan) \/ chan = 0).
  { intros w Hw. destruct (Z.eq_dec chan 0); [now right|]. left. apply bppPCM_ok; [lia|lia|]. change (2 ^ 31) with 2147483648. assert ((w + 7) / 8 <= 8) by lia. nia. }
  destruct (chan =? 0) eqn:E0; [left; reflexivity|]. unfold hbind, hlift, hret, hfail.
  destruct (teq id T_lpcm).
  { destruct (Z.testbit flags 0).
    - destruct (negb (bits =? 32) && negb (bits =? 64)) eqn:E; [left; reflexivity|]. right. destruct (BP bits ltac:(lia)) as [-> |]; [|lia]. cbn [rbind]. eexists. split; [reflexivity|discriminate].
    - destruct ((s32 bits <? 1) || (32 <? s32 bits)) eqn:E; [left; reflexivity|]. right. destruct (BP (s32 bits) ltac:(lia)) as [-> |]; [|lia]. cbn [rbind]. eexists. split; [reflexivity|discriminate]. }
  destruct (teq id T_ulaw); [right; eexists; split; [reflexivity|discriminate]|]. destruct (teq id T_alaw); [right; eexists; split; [reflexivity|discriminate]|].
  destruct (teq id T_ima4).
  { right. unfold ck32, inS. change (2 ^ (32 - 1)) with 2147483648. replace ((- (2147483648) <=? 34 * chan) && (34 * chan <? 2147483648)) with true by lia. cbn [rbind]. eexists. split; [reflexivity|discriminate]. }
  destruct (teq id T_alac); [|left; reflexivity]. do 4 (match goal with |- context [if flags =? ?k then _ else _] => destruct (flags =? k) end; [right; eexists; split; [reflexivity|discriminate]|]). left. reflexivity.
Qed.

Lemma caf_chunk_defined host s b i l : bytes_ok b = true -> 0 <= i -> 0 <= l < 2 ^ 62 -> i + 12 <= zlen b ->
  cafTag b i = T_desc \/ formatKnown s -> (cafTag b i = T_desc -> word BigEndian b (i + 36) < 2 ^ 24) ->
  cafChunk (B := Release) host s (cafTag b i) l (mkFile b (i + 12)) = Ok None \/
  exists s' f', cafChunk (B := Release) host s (cafTag b i) l (mkFile b (i + 12)) = Ok (Some (s', f')) /\ formatKnown s' /\ fbytes f' = b.
Proof.
  intros Hok Hi Hl Hb HF HC. change (2 ^ 62) with 4611686018427387904 in *. unfold cafChunk.
  destruct (teq (cafTag b i) T_desc) eqn:E1.
  { clear HF. assert (ED : cafTag b i = T_desc) by (unfold teq in E1; destruct (list_eq_dec Z.eq_dec (cafTag b i) T_desc); congruence). specialize (HC ED). clear E1 ED.
    unfold cafParseDesc. destruct (Z.lt_ge_cases (zlen b) (i + 44)) as [Hs|Hs].
    - left. destruct (Z.lt_ge_cases (zlen b) (i + 20)); [apply short_needU; lia|]. rewrite at_needU by lia. change (Z.of_nat 8) with 8.
      destruct (Z.lt_ge_cases (zlen b) (i + 24)); [apply short_needTag; lia|]. rewrite at_needTag by lia.
      destruct (Z.lt_ge_cases (zlen b) (i + 28)); [apply short_needU; lia|]. rewrite at_needU by lia. change (Z.of_nat 4) with 4.
      destruct (Z.lt_ge_cases (zlen b) (i + 32)); [apply short_needU; lia|]. rewrite at_needU by lia. change (Z.of_nat 4) with 4.
      destruct (Z.lt_ge_cases (zlen b) (i + 36)); [apply short_needU; lia|]. rewrite at_needU by lia. change (Z.of_nat 4) with 4.
      destruct (Z.lt_ge_cases (zlen b) (i + 40)); [apply short_needU; lia|]. rewrite at_needU by lia. change (Z.of_nat 4) with 4.
      apply short_needU; lia.
    - rewrite at_needU by lia. change (Z.of_nat 8) with 8. rewrite at_needTag by lia. do 5 (rewrite at_needU by lia; change (Z.of_nat 4) with 4).
      replace (i + 12 + 8 + 4 + 4 + 4 + 4) with (i + 36) by lia. set (chan := valueOf BigEndian (zfirstn 4 (zskipn (i + 36) b))).
      assert (EC : word BigEndian b (i + 36) = chan) by (unfold word; rewrite at_zlen by lia; reflexivity).
      pose proof (word_range BigEndian b (i + 36) Hok) as WR. rewrite EC in *.
      match goal with |- context [cafDescTail host s ?r ?id ?fl ?bp ?fp chan ?bi ?f] => destruct (caf_desc_defined host s r id fl bp fp chan bi f ltac:(lia)) as [->|(s' & -> & HK)] end;
        [|now left|right; do 2 eexists; split; [reflexivity|]; split; [exact HK|reflexivity]].
      unfold valueOf. apply be_val_range. apply bytes_ok_firstn, bytes_ok_skipn. exact Hok. }
  assert (HK : formatKnown s). { destruct HF as [E|]; [|assumption]. rewrite E in E1. discriminate E1. } clear HF HC.
  destruct (teq (cafTag b i) T_data).
  { unfold cafParseData. destruct (Z.lt_ge_cases (zlen b) (i + 16)); [left; apply short_needU; lia|]. rewrite at_needU by lia. change (Z.of_nat 4) with 4. rewrite st_tell, st_length.
    replace (l =? -1) with false by lia. unfold ck64, inS. change (2 ^ (64 - 1)) with 9223372036854775808. replace ((- (9223372036854775808) <=? l - 4) && (l - 4 <? 9223372036854775808)) with true by lia.
    unfold hbind, hlift. cbn [rbind]. destruct (cs_fmt s) eqn:Es; [|contradiction HK]. right. do 2 eexists. split; [reflexivity|]. split; [discriminate|reflexivity]. }
  destruct (teq (cafTag b i) T_pakt).
  { assert (P : exists r, paktParse (B := Release) l (mkFile b (i + 12)) = Ok r).
    { unfold paktParse. destruct (l <? 24) eqn:El; [eexists; reflexivity|].
      destruct (Z.lt_ge_cases (zlen b) (i + 20)); [eexists; apply short_needU; lia|]. rewrite at_needU by lia. change (Z.of_nat 8) with 8.
      destruct (Z.lt_ge_cases (zlen b) (i + 28)); [eexists; apply short_needU; lia|]. rewrite at_needU by lia. change (Z.of_nat 8) with 8.
      destruct (Z.lt_ge_cases (zlen b) (i + 32)); [eexists; apply short_needU; lia|]. rewrite at_needU by lia. change (Z.of_nat 4) with 4.
      destruct (Z.lt_ge_cases (zlen b) (i + 36)); [eexists; apply short_needU; lia|]. rewrite at_needU by lia. change (Z.of_nat 4) with 4.
      match goal with |- context [if ?x =? 0 then hret None else _] => destruct (x =? 0) end; [eexists; reflexivity|]. unfold hbind at 1, hread, fread. cbn [fbytes fpos rbind].
      match goal with |- context [if negb ?x then hfail else _] => destruct (negb x) end; [eexists; reflexivity|]. set (d := zfirstn _ _). destruct (C39_table_reading_safe d) as [sz ES]. unfold hbind at 1, hlift. rewrite ES. cbn [rbind].
      unfold hbind, hassert, rassert. match goal with |- context [if ?x =? ?y then Ok tt else _] => destruct (x =? y) end; eexists; reflexivity. }
    unfold cafParsePakt, hbind. destruct P as [[[t f']|] P]; rewrite P; [|now left]. destruct (tame_pakt (B := Release) l (mkFile b (i + 12))) as [_ T]. specialize (T _ _ P). cbn [fbytes] in T.
    cbn [rbind]. right. destruct t; do 2 eexists; (split; [reflexivity|]); split; auto. }
  destruct (teq (cafTag b i) T_kuki); [|right; do 2 eexists; split; [reflexivity|]; split; auto].
  unfold cafParseCookie. replace (l <? 0) with false by lia. unfold hbind, hread, fread. cbn [fbytes fpos rbind]. destruct (negb _); [now left|].
  right. do 2 eexists. split; [reflexivity|]. split; auto.
Qed.

Theorem C57_caf_defined_partial :
  forall host b, bytes_ok b = true -> zlen b < 2 ^ 62 ->
    20 <= zlen b -> cafTag b 8 = T_desc ->
    (forall i, cafWalk b i -> i + 12 <= zlen b ->
       (restOfFile b i \/ 0 <= cafLen b i < 2 ^ 62) /\ (cafTag b i = T_desc -> word BigEndian b (i + 36) < 2 ^ 24)) ->
    forall fuel, zlen b <= 12 * Z.of_nat fuel -> exists r, cafOpen (B := Release) host fuel (mkFile b 0) = Ok r.
Proof.
  intros host b Hok Hz H20 HD H fuel Hf. change (2 ^ 62) with 4611686018427387904 in *.
  assert (G : forall fuel i s, 0 <= i -> cafWalk b i \/ zlen b <= i -> (formatKnown s \/ i = 8) -> zlen b - i <= 12 * Z.of_nat fuel ->
    cafLoop (B := Release) host fuel (zlen b) i s (mkFile b i) = Ok None \/ exists s' f', cafLoop (B := Release) host fuel (zlen b) i s (mkFile b i) = Ok (Some (s', f')) /\ formatKnown s').
  { clear fuel Hf. induction fuel as [|fuel IH]; intros i s Hi W HK Hl.
    { cbn [cafLoop]. replace (i <? zlen b) with false by lia. right. do 2 eexists. split; [reflexivity|]. destruct HK; [assumption|lia]. }
    destruct (Z.lt_ge_cases i (zlen b)) as [Hlt|Hge].
    2:{ cbn [cafLoop]. replace (i <? zlen b) with false by lia. right. do 2 eexists. split; [reflexivity|]. destruct HK; [assumption|lia]. }
    destruct W as [W|W]; [|lia]. destruct (caf_loop_step (B := Release) host fuel b i s Hi Hlt) as [S1 S2].
    destruct (Z.lt_ge_cases (zlen b) (i + 12)) as [Hs|Hs]; [left; apply S1; exact Hs|]. rewrite S2 by exact Hs. clear S1 S2.
    destruct (H i W Hs) as [H1 H2]. set (l := cafLength (zlen b) (i + 12) (cafTag b i) (cafLen b i)).
    assert (P : 0 <= l < 4611686018427387904 /\ (cafWalk b (i + 12 + l) \/ zlen b <= i + 12 + l)).
    { unfold l. destruct (restOfFile_dec b i) as [D|D].
      - rewrite cafLength_rest by assumption. split; [lia|right; lia].
      - rewrite cafLength_other by assumption. destruct H1 as [?|P0]; [tauto|]. split; [exact P0|]. left. now apply CW_next. }
    destruct P as [P0 P1].
    destruct (caf_chunk_defined host s b i l Hok Hi P0 Hs ltac:(destruct HK as [HK| ->]; auto) H2) as [E|(s' & f' & E & HK' & Ef)]; [left; unfold hbind at 1; now rewrite E|].
    match goal with |- ?X = Ok None \/ _ => assert (EQ : X = cafLoop (B := Release) host fuel (zlen b) (i + 12 + l) s' (mkFile b (i + 12 + l))) end.
    { unfold hbind at 1; rewrite E. cbn [rbind]. unfold hbind at 1, hlift, ck64, inS. change (2 ^ (64 - 1)) with 9223372036854775808. replace ((- (9223372036854775808) <=? i + 12 + l) && (i + 12 + l <? 9223372036854775808)) with true by lia. cbn [rbind].
      rewrite st_lseek by lia. rewrite Ef. reflexivity. }
    rewrite EQ. apply IH; [lia|exact P1|now left|lia]. }
  unfold cafOpen, cafRead. rewrite hbind_assoc, st_seek, hbind_assoc, st_tell, hbind_assoc, st_length. cbn [fbytes fpos]. unfold flength. cbn [fbytes].
  unfold hbind. destruct (G fuel 8 cafSt0 ltac:(lia) (or_introl (CW_start b)) (or_intror eq_refl) ltac:(lia)) as [->|(s' & f' & -> & HK)]; [eexists; reflexivity|].
  cbn [rbind]. unfold hlift, cafParsed. destruct (cs_fmt s') eqn:E; [eexists; reflexivity|contradiction].
Qed.
Print Assumptions C57_caf_defined_partial.

(** A file that meets the hypotheses of both theorems. *)
Definition exCaf : list Z := cafPre (mkFmt cafRate TwosComp 16 2 BigEndian CNone 1 4) ++ [88;88;88;88] ++ be8 3 ++ [1;2;3] ++ cafData (-1) ++ [1;2;3;4].
Example C57_caf_example :
  bytes_ok exCaf = true /\ 20 <= zlen exCaf /\ cafTag exCaf 8 = T_desc /\
  forall i, cafWalk exCaf i -> i + 12 <= zlen exCaf -> (restOfFile exCaf i \/ 0 <= cafLen exCaf i < 2 ^ 62) /\ (cafTag exCaf i = T_desc -> word BigEndian exCaf (i + 36) < 2 ^ 24).
Proof.
  split; [reflexivity|]. split; [vm_compute; discriminate|]. split; [reflexivity|].
  assert (R : restOfFile exCaf 67) by (split; vm_compute; reflexivity).
  assert (K : forall i, cafWalk exCaf i -> i = 8 \/ i = 52 \/ i = 67).
  { intros i W. induction W as [|i W [->|[->| ->]] Hi N]; [left; reflexivity|right; left; reflexivity|right; right; reflexivity|]. tauto. }
  intros i W _. destruct (K i W) as [->|[->| ->]].
  - split; [right; split; [vm_compute; discriminate|vm_compute; reflexivity]|]. intros _. vm_compute. reflexivity.
  - split; [right; split; [vm_compute; discriminate|vm_compute; reflexivity]|]. intros E. vm_compute in E. discriminate.
  - split; [left; exact R|]. intros E. vm_compute in E. discriminate.
Qed.
