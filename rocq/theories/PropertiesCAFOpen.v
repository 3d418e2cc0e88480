(** * CAF files whose audio has no stated length

    The format lets the last chunk be audio of length -1: it goes on to the end of the file.  Streaming programs leave files like this, and so does this library
    when the program dies before the first sync (the header is written with that length). *)
From Verif Require Import Prelude PreludeFacts ByteOrder G711 G711Proofs FileIO Reader ReaderSpec ReaderProofs PropertiesReader.
From Verif Require Import Writer WriterSpec WriterProofs WriterHistory Codecs CodecsProofs RoundTripProofs PropertiesWriter PropertiesRoundTrip HeaderIO FileRoundTrip Float FloatBits Chunks PacketTable.
From Verif Require Import CAF PropertiesCAF PropertiesForeign PropertiesForeign2 PropertiesForeign3.

Lemma caf_last_open {B : Build} host fuel b p s fm edits data : cs_fmt s = Some fm -> 0 <= p -> zlen b < 2 ^ 62 ->
  zskipn p b = T_data ++ be8 (-1) ++ beU edits ++ data ->
  exists f', cafLoop host (S fuel) (zlen b) p s (mkFile b p) =
    Ok (Some (CafSt (Some fm) (p + 16) (zlen data) (computeTotal (cs_total s) (zlen data) fm) (cs_pt s) (cs_cookie s), f')).
Proof.
  intros Hf Hp Hl H. change (2 ^ 62) with 4611686018427387904 in *. pose proof (zlen_nonneg data) as Zd.
  assert (Lb : zlen b = p + 16 + zlen data).
  { assert (zlen (zskipn p b) = zlen (T_data ++ be8 (-1) ++ beU edits ++ data)) as L by now rewrite H. unfold be8, beU in L. rewrite zlen_skipn, !zlen_app, !sampleBytes_zlen in L by lia.
    change (zlen T_data) with 4 in L. change (Z.of_nat 8) with 8 in L. change (Z.of_nat 4) with 4 in L. lia. }
  unfold be8, beU in H. cbn [cafLoop]. replace (p <? zlen b) with true by lia. cbn [negb]. cbv iota. htag H. hstep H. change (s64 ((-1) mod 2 ^ (8 * Z.of_nat 8))) with (-1). change (Z.of_nat 8) with 8 in *.
  replace (p + 4 + 8) with (p + 12) in * by lia. cbv zeta.
  change (cafLength (zlen b) (p + 12) T_data (-1)) with (zlen b - (p + 12)). change (cafChunk host s T_data (zlen b - (p + 12))) with (cafParseData s (zlen b - (p + 12))).
  unfold cafParseData at 1. rewrite !hbind_assoc. hstep H. rewrite !hbind_assoc, st_tell, !hbind_assoc, st_length, !hbind_assoc. cbn [fpos]. change (Z.of_nat 4) with 4 in *. replace (zlen b - (p + 12) =? -1) with false by lia. cbv iota.
  rewrite (st_lift _ (zlen data)).
  2:{ unfold ck64. rewrite (proj2 (inS_spec 64 _)) by (change (2 ^ (64 - 1)) with 9223372036854775808; lia). f_equal; lia. }
  rewrite Hf. rewrite st_ret.
  rewrite (st_lift _ (zlen b)).
  2:{ unfold ck64. rewrite (proj2 (inS_spec 64 _)) by (change (2 ^ (64 - 1)) with 9223372036854775808; lia). f_equal; lia. }
  rewrite st_lseek by lia. cbn [fbytes]. destruct fuel; cbn [cafLoop]; rewrite Z.ltb_irrefl; cbn [negb]; cbv iota; unfold hret; eexists; replace (p + 12 + 4) with (p + 16) by lia; reflexivity.
Qed.

(** ** C61: written by other programs: a description, other chunks, then audio to the end of the file *)
Theorem C61_caf_audio_to_the_end :
  forall (B : Build) host rb id flags bpp fpp ch bits sf w o c fpp' bpp' edits data l1 l2 fuel,
    cafCode host ch fpp id flags bits sf w o c fpp' bpp' -> 0 <= rb < 2 ^ 64 -> 0 <= flags < 2 ^ 32 -> 0 <= fpp < 2 ^ 32 -> 0 < ch < 2 ^ 24 -> 0 <= bits < 2 ^ 32 ->
    Forall cafUnknown (l1 ++ l2) ->
    let before := l1 ++ descChunk rb id flags bpp fpp ch bits :: l2 in
    let file := cafFile before ++ T_data ++ be8 (-1) ++ beU edits ++ data in
    zlen file < 2 ^ 62 -> (length before < fuel)%nat ->
    exists f', cafOpen host fuel (mkFile file 0) =
      Ok (Some (mkParsed (mkFmt (of64 rb) sf w ch o c fpp' bpp') (24 + zlen (cafBytes before)) (zlen data)
        (match c with CALAC => 0 | _ => zlen data / bpp' * fpp' end), f')).
Proof.
  intros B host rb id flags bpp fpp ch bits sf w o c fpp' bpp' edits data l1 l2 fuel Hcode Hr Hfl Hfp Hch Hbi Hu before file Hl Hfu. change (2 ^ 62) with 4611686018427387904 in *.
  apply Forall_app in Hu as [U1 U2]. pose proof (zlen_nonneg data) as Zd. unfold before in *. clear before. set (b := file) in *.
  set (last := T_data ++ be8 (-1) ++ beU edits ++ data) in *.
  assert (H : zskipn 8 b = cafBytes l1 ++ cafBytes (descChunk rb id flags bpp fpp ch bits :: l2) ++ last).
  { unfold b, file, cafFile. rewrite !cafBytes_app, <- !app_assoc. exact (zskipn_exact (T_caff ++ [0; 1; 0; 0]) _). }
  rewrite !app_length in Hfu. cbn [length] in Hfu. clearbody b. clear file. unfold cafOpen, cafRead.
  rewrite hbind_assoc, st_seek, hbind_assoc, st_tell, hbind_assoc, st_length. cbn [fbytes fpos]. unfold flength. cbn [fbytes].
  pose proof (zlen_nonneg (cafBytes l1)) as Z1. pose proof (zlen_nonneg (cafBytes l2)) as Z2.
  replace fuel with (length l1 + S (length l2 + S (fuel - length l1 - length l2 - 2)))%nat by lia. set (fu := (fuel - _ - _ - 2)%nat). clearbody fu.
  unfold hbind. destruct (caf_skip host l1 (S (length l2 + S fu)) b 8 cafSt0 _ U1 H ltac:(lia) ltac:(change (2 ^ 62) with 4611686018427387904; lia)) as [-> H1]. clear H.
  set (p1 := 8 + zlen (cafBytes l1)) in *. set (dc := snd (descChunk rb id flags bpp fpp ch bits)) in *. change (descChunk rb id flags bpp fpp ch bits) with (T_desc, dc) in H1.
  assert (H1' : zskipn p1 b = T_desc ++ be8 (zlen dc) ++ dc ++ cafBytes l2 ++ last) by (rewrite H1, cafBytes_cons; clearbody dc; rewrite <- !app_assoc; reflexivity).
  clear H1. rename H1' into H1.
  assert (H12 : zskipn (p1 + 12) b = dc ++ cafBytes l2 ++ last).
  { pose proof H1 as H. apply skip_field in H; [|lia]. change (zlen T_desc) with 4 in H. unfold be8 in H. apply skip_sample in H; [|lia]. change (Z.of_nat 8) with 8 in H. replace (p1 + 4 + 8) with (p1 + 12) in H by lia. exact H. }
  destruct (desc_code host cafSt0 rb id flags bpp fpp ch bits sf w o c fpp' bpp' b (p1 + 12) _ Hcode Hr Hfl Hfp Hch Hbi ltac:(lia) H12 (zlen dc)) as (f1 & D1 & D2).
  destruct (caf_one host (length l2 + S fu) b p1 cafSt0 T_desc dc _ _ f1 H1 ltac:(lia) eq_refl ltac:(change (2 ^ 62) with 4611686018427387904; lia) D1 D2) as [-> H2]. clear D1 D2 H1 H12 f1.
  pose proof (zlen_nonneg dc) as Zdc. set (fm := mkFmt (of64 rb) sf w ch o c fpp' bpp') in *.
  destruct (caf_skip host l2 (S fu) b (p1 + 12 + zlen dc) (cafSetFmt cafSt0 fm) _ U2 H2 ltac:(lia) ltac:(change (2 ^ 62) with 4611686018427387904; lia)) as [-> H3]. clear H2.
  set (p2 := p1 + 12 + zlen dc + zlen (cafBytes l2)) in *.
  destruct (caf_last_open host fu b p2 (cafSetFmt cafSt0 fm) fm edits data eq_refl ltac:(lia) ltac:(change (2 ^ 62) with 4611686018427387904; lia) H3) as (f' & ->).
  cbn [rbind]. unfold cafParsed, hlift; cbn [cs_fmt rbind cs_first cs_dsize cs_total cafSetFmt cafSt0].
  assert (LD : zlen data < 4611686018427387904).
  { assert (zlen (zskipn p2 b) = zlen last) as L by now rewrite H3. unfold last in L. rewrite zlen_skipn, !zlen_app in L by lia. pose proof (zlen_nonneg T_data). pose proof (zlen_nonneg (be8 (-1))). pose proof (zlen_nonneg (beU edits)). lia. }
  assert (ET : computeTotal 0 (zlen data) fm = match c with CALAC => 0 | _ => zlen data / bpp' * fpp' end).
  2:{ rewrite ET. exists f'. do 3 f_equal. f_equal. change (descChunk rb id flags bpp fpp ch bits) with (T_desc, dc). rewrite cafBytes_app, zlen_app, cafBytes_len by reflexivity. unfold p2, p1. lia. }
  clear - Hcode Hch Zd LD. change (2 ^ 24) with 16777216 in *.
  assert (T : forall d k, 0 < d -> 0 < k -> k <= 2 * d -> f_bpp fm = d -> f_fpp fm = k -> computeTotal 0 (zlen data) fm = zlen data / d * k).
  { clear Hcode. intros d k Hd Hk Hkd <- <-. unfold computeTotal. replace (f_bpp fm =? 0) with false by lia. replace (f_fpp fm =? 0) with false by lia. cbn [orb].
    generalize dependent (f_fpp fm). generalize dependent (f_bpp fm). intros d Hd k Hk Hkd.
    assert (0 <= zlen data / d) by (apply Z.div_pos; lia). pose proof (Z.mul_div_le (zlen data) d Hd). assert (0 <= zlen data / d * k <= 2 * zlen data) by nia.
    unfold s64, u64. rewrite (uN_small 64 (zlen data)) by (change (2 ^ 64) with 18446744073709551616; lia).
    rewrite uN_small by (change (2 ^ 64) with 18446744073709551616; lia). apply sN_small; [lia|change (2 ^ (64 - 1)) with 9223372036854775808; lia]. }
  destruct Hcode; try reflexivity; apply T; try reflexivity; try lia; try (assert (1 <= (w + 7) / 8) by lia; nia).
Qed.
Print Assumptions C61_caf_audio_to_the_end.

(** A stereo file with five and a half frames. *)
Example C61_caf_end_example : exists f', cafOpen (B := true) LittleEndian 3 (mkFile (cafFile [descChunk 0x40e5888000000000 [108;112;99;109] 2 4 1 2 16; ([99;104;97;110], [0;0;0])] ++ T_data ++ be8 (-1) ++ beU 0 ++ zrepeat 7 22) 0) =
  Ok (Some (mkParsed (mkFmt (of64 0x40e5888000000000) TwosComp 16 2 LittleEndian CNone 1 4) 83 22 5, f')).
Proof.
  exact (C61_caf_audio_to_the_end true LittleEndian 0x40e5888000000000 _ _ 4 1 2 16 _ _ _ _ _ _ 0 (zrepeat 7 22) [] [([99;104;97;110], [0;0;0])] 3 (CC_int_le _ _ _ 16 ltac:(lia)) ltac:(lia) ltac:(lia) ltac:(lia) ltac:(lia) ltac:(lia)
    ltac:(repeat constructor; cbn; intuition discriminate) ltac:(vm_compute; reflexivity) ltac:(cbn; lia)).
Qed.

(** ** C53: the program dies before the first sync *)
Lemma caf_read_open (B : Build) host rate fm b data fuel : cafFmt host rate fm -> validD rate = true ->
  b = cafInit fm ++ data -> zlen b < 2 ^ 62 -> (2 <= fuel)%nat ->
  exists f', cafOpen host fuel (mkFile b 0) = Ok (Some (mkParsed fm 68 (zlen data) (computeTotal 0 (zlen data) fm), f')).
Proof.
  intros Hf Hr Eb Hl Hfu. change (2 ^ 62) with 4611686018427387904 in *. destruct (bits64_round rate Hr) as [Rb Er]. change (2 ^ 64) with 18446744073709551616 in Rb.
  destruct (cafFields fm) as [[[[id flags] bpp] fpp] bits] eqn:EF. destruct (caf_desc_ok host rate fm Hf id flags bpp fpp bits EF) as (Lid & Hfl & Hbi & Hch & Erate & RT).
  assert (H : zskipn 8 b = T_desc ++ be8 32 ++ be8 (bits64 rate) ++ id ++ beU flags ++ beU bpp ++ beU fpp ++ beU (f_chan fm) ++ beU bits ++ T_data ++ be8 (-1) ++ beU 0 ++ data).
  { rewrite Eb. unfold cafInit, cafPre, cafDesc, cafData. rewrite EF, Erate. rewrite <- !app_assoc. exact (zskipn_exact cafMagic _). }
  assert (Lb : zlen b = 68 + zlen data) by (rewrite Eb; unfold cafInit; rewrite !zlen_app, cafPre_len, cafData_len; lia). pose proof (zlen_nonneg data) as Zd.
  clear Eb. unfold be8, beU in H. unfold cafOpen, cafRead.
  rewrite hbind_assoc, st_seek, hbind_assoc, st_tell, hbind_assoc, st_length. cbn [fbytes fpos]. unfold flength. cbn [fbytes].
  destruct fuel as [|[|fuel]]; [lia|lia|]. remember (S fuel) as fu eqn:Efu. cbn [cafLoop]. replace (8 <? zlen b) with true by lia. cbn [negb]. cbv iota.
  rewrite hbind_assoc. htag H. rewrite hbind_assoc. hstep H. change (8 * Z.of_nat 8) with 64. change (2 ^ 64) with 18446744073709551616. rewrite (Z.mod_small 32) by lia.
  change (s64 32) with 32. change (cafLength (zlen b) (8 + 12) T_desc 32) with 32. change (cafChunk host cafSt0 T_desc 32) with (cafParseDesc host cafSt0).
  unfold cafParseDesc. rewrite !hbind_assoc. hstep H. rewrite !hbind_assoc. htag H. do 5 (rewrite !hbind_assoc; hstep H).
  change (8 * Z.of_nat 8) with 64. change (8 * Z.of_nat 4) with 32. change (2 ^ 64) with 18446744073709551616. change (2 ^ 32) with 4294967296.
  rewrite (Z.mod_small (bits64 rate)), (Z.mod_small flags), (Z.mod_small (f_chan fm)), (Z.mod_small bits) by lia. rewrite Er.
  assert (RT' : forall bpp' fpp' f, cafDescTail host cafSt0 rate id flags bpp' fpp' (f_chan fm) bits f = cafDescTail host cafSt0 rate id flags bpp fpp (f_chan fm) bits f).
  { intros. destruct Hf as [? ? ? Hp|? ->|? ->|? ->]; [destruct Hp; subst fm|..]; cbn [cafFields f_comp] in EF; inversion EF; subst; reflexivity. }
  unfold hbind at 1. rewrite RT', RT. clear RT RT'. cbn [rbind].
  change (hlift (ck64 (8 + 12 + 32))) with (hret 52). rewrite hbind_assoc, st_ret, hbind_assoc, st_lseek by lia. cbn [fbytes].
  change (8 + 4 + Z.of_nat 8 + Z.of_nat 8 + 4 + Z.of_nat 4 + Z.of_nat 4 + Z.of_nat 4 + Z.of_nat 4 + Z.of_nat 4) with 52 in H.
  unfold hbind. destruct (caf_last_open host fuel b 52 (cafSetFmt cafSt0 fm) fm 0 data eq_refl ltac:(lia) ltac:(change (2 ^ 62) with 4611686018427387904; lia) H) as (f' & E).
  rewrite Efu. rewrite E. exists f'. reflexivity.
Qed.

(** What the file holds after writes without a sync. *)
Lemma unsynced_file {V} (B : Build) E p bpf (enc : list Z -> list Z) okF okE : memoryless E (WPerFrame p bpf enc) okF okE ->
  forall (conv : V -> list Z) junk upd hdr first cap e0 (ws : list (list V)), okF junk -> 0 <= first -> okE e0 -> Forall okF (map conv (concat ws)) ->
  exists st, wrun (WPerFrame p bpf enc) conv junk true upd (openWrite (WPerFrame p bpf enc) hdr first cap e0) (map Write ws) = Ok st /\
    fbytes (ws_file st) = overwrite hdr first (concat (map enc (map conv (concat ws)))).
Proof.
  intros HM conv junk upd hdr first cap e0 ws Hj Hf He Hok. destruct (memoryless_library _ _ _ _ HM) as [HL Hst]. pose proof (library_lawful _ _ _ _ HL) as Hlaw.
  set (c := WPerFrame p bpf enc) in *.
  pose proof (open_binv c junk okF okE Hlaw hdr first cap e0 He I) as OB. 
  destruct (writes_ok c conv junk upd okF okE Hlaw Hj (base0 c junk hdr first e0) (openWrite c hdr first cap e0) [] 0 ws Hf OB Hok) as (st & R & I).
  exists st. split; [exact R|]. unfold c, binv in I. destruct I as (-> & _). reflexivity.
Qed.

Lemma ow_at_end h d : overwrite h (zlen h) d = h ++ d.
Proof.
  replace (overwrite h (zlen h) d) with (overwrite (h ++ []) (zlen h) d) by (rewrite app_nil_r; reflexivity).
  rewrite (ow_past h [] (zlen h) d), Z.sub_diag by lia. f_equal. destruct d as [|x d]; [reflexivity|]. unfold overwrite, zskipn. rewrite skipn_nil. change (zfirstn 0 _) with (@nil Z). cbn [app]. now rewrite app_nil_r.
Qed.
(** Everything a crash can leave is the beginning of what was written: the header, then frames. *)
Lemma unsynced_image {V} (B : Build) E p bpf (enc : list Z -> list Z) okF okE : memoryless E (WPerFrame p bpf enc) okF okE ->
  forall (conv : V -> list Z) junk upd hdr first cap e0 (ws : list (list V)) X, okF junk -> zlen hdr = first -> okE e0 -> Forall okF (map conv (concat ws)) ->
  crashImage B (WPerFrame p bpf enc) conv junk upd (openWrite (WPerFrame p bpf enc) hdr first cap e0) ws X ->
  X = hdr ++ zfirstn (zlen X - first) (concat (map enc (map conv (concat ws)))) /\ first <= zlen X <= first + zlen (concat (map enc (map conv (concat ws)))).
Proof.
  intros HM conv junk upd hdr first cap e0 ws X Hj Lh He Hok [HX1 HX2]. pose proof (zlen_nonneg hdr) as Zh. change (zlen (fbytes (ws_file (openWrite (WPerFrame p bpf enc) hdr first cap e0)))) with (zlen hdr) in HX1.
  set (all := concat (map enc (map conv (concat ws)))).
  assert (A : forall i x, nth_error X i = Some x -> nth_error (hdr ++ all) i = Some x).
  { intros i x Hi. destruct (HX2 i x Hi) as (ws1 & ws2 & st1 & Ews & R1 & N1).
    rewrite Ews, concat_app, map_app in Hok. apply Forall_app in Hok as [Hok _].
    destruct (unsynced_file B E p bpf enc okF okE HM conv junk upd hdr first cap e0 ws1 Hj ltac:(lia) He Hok) as (st2 & R2 & F2).
    rewrite R1 in R2. assert (st1 = st2) as -> by congruence. rewrite F2, <- Lh, ow_at_end in N1.
    unfold all. rewrite Ews, concat_app, !map_app, concat_app, app_assoc. rewrite nth_error_app1; [exact N1|]. apply nth_error_Some. rewrite N1. discriminate. }
  assert (L : zlen X <= first + zlen all).
  { destruct (Z.le_gt_cases (zlen X) (first + zlen all)) as [|G]; [assumption|]. exfalso. rewrite <- Lh, <- zlen_app in G.
    destruct (nth_error X (length (hdr ++ all))) as [x|] eqn:Ex.
    - apply A in Ex. assert (nth_error (hdr ++ all) (length (hdr ++ all)) = None) by (apply nth_error_None; lia). congruence.
    - apply nth_error_None in Ex. unfold zlen in G. lia. }
  split; [|lia].
  assert (P : X = zfirstn (zlen X) (hdr ++ all)).
  { transitivity (zfirstn (zlen X) X); [symmetry; apply zfirstn_all; lia|]. apply zfirstn_ext; [lia|rewrite zlen_app; lia|]. intros i Hi. destruct (nth_error X i) as [x|] eqn:Ex.
    - symmetry. apply A. exact Ex.
    - apply nth_error_None in Ex. unfold zlen in Hi. lia. }
  rewrite P at 1. rewrite zfirstn_app_r by lia. rewrite Lh. reflexivity.
Qed.

(** The file opens in its format with every complete frame that reached the disk, and those are the first frames written. *)
Definition opensWithTheFirst {F W} (B : Build) (host : order) (bytes : list Z) (r : codec F) (back : F -> W) (fm : cfmt) (frames : list W) : Prop :=
  let n := (zlen bytes - 68) / f_bpp fm in
  0 <= n <= zlen frames /\ cafRecognize (mkFile bytes 0) = true /\
  (forall fuel, (2 <= fuel)%nat -> exists f', cafOpen host fuel (mkFile bytes 0) = Ok (Some (mkParsed fm 68 (zlen bytes - 68) n, f'))) /\
  readsAs B r back bytes 68 n (zfirstn n frames).

Lemma caf_killed {V W} (B : Build) host rate fm E p bpf (enc : list Z -> list Z) okF okE dec g : memoryless E (WPerFrame p bpf enc) okF okE -> cafFmt host rate fm -> validD rate = true -> f_fpp fm = 1 -> f_bpp fm = bpf -> 0 < bpf ->
  forall (conv : V -> list Z) (back : list Z -> W) junk cap e0 (ws : list (list V)) X, okF junk -> okE e0 -> Forall (fun v => okF (conv v) /\ dec (enc (conv v)) = g (conv v)) (concat ws) ->
  crashImage B (WPerFrame p bpf enc) conv junk cafUpdate (openWrite (WPerFrame p bpf enc) (cafInit fm) cafFirst cap e0) ws X -> zlen X < 2 ^ 62 ->
  opensWithTheFirst B host X (PerFrame p bpf dec) back fm (map (fun v => back (g (conv v))) (concat ws)).
Proof.
  intros HM Hf Hr E1 E2 Pb conv back junk cap e0 ws X Hj He Hok HX Hz. unfold cafFirst in *. change (2 ^ 62) with 4611686018427387904 in Hz.
  assert (Lh : zlen (cafInit fm) = 68) by (unfold cafInit; rewrite zlen_app, cafPre_len, cafData_len; reflexivity).
  destruct (memoryless_library _ _ _ _ HM) as [HL Hst]. pose proof (library_lawful _ _ _ _ HL) as [Hb Hl].
  assert (Hok1 : Forall okF (map conv (concat ws))) by (apply Forall_map; eapply Forall_impl; [|exact Hok]; cbn; tauto).
  destruct (unsynced_image B E p bpf enc okF okE HM conv junk cafUpdate (cafInit fm) 68 cap e0 ws X Hj Lh He Hok1 HX) as [EX LX].
  assert (Hd : Forall (fun x => zlen (enc x) = bpf /\ dec (enc x) = g x) (map conv (concat ws))).
  { apply Forall_map. eapply Forall_impl; [|exact Hok]. cbn. intros v [H1 H2]. auto. }
  set (l := map conv (concat ws)) in *. set (all := concat (map enc l)) in *. set (D := zfirstn (zlen X - 68) all) in *.
  assert (LD : zlen D = zlen X - 68) by (unfold D; rewrite zlen_firstn; lia).
  assert (Lall : zlen all = bpf * zlen l).
  { unfold all. rewrite (zlen_chunk_frames _ bpf); [now rewrite zlen_map|]. apply Forall_map. eapply Forall_impl; [|exact Hd]. cbn. tauto. }
  unfold opensWithTheFirst. rewrite E2. set (n := (zlen X - 68) / bpf).
  assert (N0 : 0 <= n) by (apply Z.div_pos; lia). assert (N1 : bpf * n <= zlen X - 68) by (apply Z.mul_div_le; lia). assert (N2 : n <= zlen l) by nia.
  split. { rewrite zlen_map. unfold l in N2. rewrite zlen_map in N2. lia. }
  split. { rewrite EX. reflexivity. }
  split.
  { intros fuel Hfu. destruct (caf_read_open B host rate fm X D fuel Hf Hr EX ltac:(change (2 ^ 62) with 4611686018427387904; lia) Hfu) as (f' & R). exists f'. rewrite R, LD.
    rewrite computeTotal_floor; [rewrite E2; reflexivity|..]; try change (2 ^ 62) with 4611686018427387904; lia. }
  assert (EW : zfirstn n (map (fun v => back (g (conv v))) (concat ws)) = map back (map g (zfirstn n l))).
  { unfold l. rewrite !map_zfirstn, !map_map. reflexivity. }
  rewrite EW. apply holds_readsAs. assert (LN : zlen (zfirstn n l) = n) by (rewrite zlen_firstn; lia).
  replace (PerFrame p bpf dec) with (PerFrame p bpf dec) by reflexivity. rewrite <- LN at 1.
  assert (Hd2 : Forall (fun x => zlen (enc x) = bpf /\ dec (enc x) = g x) (zfirstn n l)) by (apply Forall_firstn; exact Hd).
  apply perFrame_holds with (enc := enc); [lia|exact Pb|exact Hd2|].
  assert (L3 : zlen (concat (map enc (zfirstn n l))) = bpf * n).
  { rewrite (zlen_chunk_frames _ bpf); [rewrite zlen_map; lia|]. apply Forall_map. eapply Forall_impl; [|exact Hd2]. cbn. tauto. }
  rewrite L3. unfold region. rewrite EX. replace (zskipn 68 (cafInit fm ++ D)) with D by (rewrite <- Lh; symmetry; apply zskipn_exact).
  unfold D. rewrite zfirstn_zfirstn by nia. replace (Z.min (bpf * n) (zlen X - 68)) with (bpf * n) by lia.
  unfold all. rewrite <- (zfirstn_skipn n l) at 1. rewrite map_app, concat_app. rewrite <- L3. apply zfirstn_exact.
Qed.

(** The program dies at any moment before the first sync, with any part of the file on the disk from the header on. *)
Theorem C53_caf_pcm_killed_before_sync :
  forall (B : Build) host rate o fm sgn n, cafPCM rate o fm sgn n -> validD rate = true ->
  forall (V W : Type) (conv : V -> list Z) (back : list Z -> W) junk cap (ws : list (list V)) X,
    let ch := f_chan fm in
    zlen junk = ch -> Forall (fun v => frameOf ch (fits sgn n) (conv v)) (concat ws) ->
    crashImage B (pcmW o n ch) conv junk cafUpdate (openWrite (pcmW o n ch) (cafInit fm) cafFirst cap tt) ws X -> zlen X < 2 ^ 62 ->
    opensWithTheFirst B host X (pcmR o sgn n ch) back fm (map (fun v => back (conv v)) (concat ws)).
Proof.
  intros B host rate o fm sgn n Hp Hr V W conv back junk cap ws X ch Hj Hok HX Hz.
  assert (K : (1 <= n)%nat /\ 0 < ch /\ f_fpp fm = 1 /\ f_bpp fm = Z.of_nat n * ch).
  { unfold ch. destruct Hp as [w c -> _ Hw En Hc _|c -> _ -> Hc _|c -> _ -> Hc _]; cbn [f_fpp f_bpp f_chan]; repeat split; lia. }
  destruct K as (Hn & Hc & E1 & E2).
  apply (caf_killed B host rate fm unit true (Z.of_nat n * ch) _ (frameOf ch (fun _ => True)) (fun _ => True) _ (fun x => x) (M_pcm o n ch Hn Hc) ltac:(econstructor; eauto) Hr E1 E2 ltac:(nia) conv back junk cap tt ws X); auto.
  - split; [exact Hj|]. apply Forall_forall; auto.
  - eapply Forall_impl; [|exact Hok]. cbn. intros v [H1 H2]. split; [split; [exact H1|apply Forall_forall; auto]|].
    apply pcm_frame_roundtrip; [exact Hn|]. split; [exact H1|]. exact H2.
Qed.
Print Assumptions C53_caf_pcm_killed_before_sync.

Theorem C53_caf_g711_killed_before_sync :
  forall (B : Build) host rate c ch, c = CUlaw \/ c = CAlaw -> 0 < ch < 2 ^ 31 -> validD rate = true ->
  forall (V W : Type) (conv : V -> list Z) (back : list Z -> W) junk cap (ws : list (list V)) X,
    let w := match c with CUlaw => ulawW ch | _ => alawW ch end in
    let rd := match c with CUlaw => ulawR ch | _ => alawR ch end in
    let quantise := match c with CUlaw => fun x => ulaw2linear (linear2ulaw x) | _ => fun x => alaw2linear (linear2alaw x) end in
    let fm := mkFmt rate TwosComp 16 ch host c 1 ch in
    zlen junk = ch -> Forall (fun v => zlen (conv v) = ch) (concat ws) ->
    crashImage B w conv junk cafUpdate (openWrite w (cafInit fm) cafFirst cap tt) ws X -> zlen X < 2 ^ 62 ->
    opensWithTheFirst B host X rd back fm (map (fun v => back (map quantise (conv v))) (concat ws)).
Proof.
  intros B host rate c ch Hc Hch Hr V W conv back junk cap ws X w rd quantise fm Hj Hok HX Hz.
  assert (Ht : forall l : list Z, Forall (fun _ => True) l) by (intros; apply Forall_forall; auto).
  destruct Hc as [Ec|Ec]; unfold w, rd, quantise, fm in *; clear w rd quantise fm; rewrite Ec in HX |- *.
  - apply (caf_killed B host rate _ unit false ch _ (frameOf ch (fun _ => True)) (fun _ => True) _ (map (fun x => ulaw2linear (linear2ulaw x))) (M_ulaw ch ltac:(lia)) (CF_ulaw host rate _ ch eq_refl Hch) Hr eq_refl eq_refl ltac:(lia) conv back junk cap tt ws X); auto.
    + split; auto.
    + eapply Forall_impl; [|exact Hok]. cbn. intros v H1. split; [split; auto|]. unfold ulaw2linear_buf, linear2ulaw_buf. rewrite map_map.
      apply map_ext. intros x. pose proof (ulaw_dec_range _ (linear2ulaw_byte x)). apply sN_small; [lia|]. change (2 ^ (16 - 1)) with 32768. lia.
  - apply (caf_killed B host rate _ unit false ch _ (frameOf ch (fun _ => True)) (fun _ => True) _ (map (fun x => alaw2linear (linear2alaw x))) (M_alaw ch ltac:(lia)) (CF_alaw host rate _ ch eq_refl Hch) Hr eq_refl eq_refl ltac:(lia) conv back junk cap tt ws X); auto.
    + split; auto.
    + eapply Forall_impl; [|exact Hok]. cbn. intros v H1. split; [split; auto|]. unfold alaw2linear_buf, linear2alaw_buf. rewrite map_map.
      apply map_ext. intros x. pose proof (alaw_dec_range _ (linear2alaw_byte x)). apply sN_small; [lia|]. change (2 ^ (16 - 1)) with 32768. lia.
Qed.
Print Assumptions C53_caf_g711_killed_before_sync.

(** Four frames in two writes; two and a half reached the disk. *)
Example C53_caf_killed_example :
  let fm := mkFmt cafRate TwosComp 16 1 LittleEndian CNone 1 2 in
  cafPCM cafRate LittleEndian fm true 2 /\ validD cafRate = true /\
  forall B : Build, let X := cafInit fm ++ [1;0; 2;0; 3] in
    crashImage B (pcmW LittleEndian 2 1) (fun x => x) [0] cafUpdate (openWrite (pcmW LittleEndian 2 1) (cafInit fm) cafFirst 1024 tt) [[[1]; [2]]; [[3]; [4]]] X /\
    exists f', cafOpen LittleEndian 2 (mkFile X 0) = Ok (Some (mkParsed fm 68 5 2, f')).
Proof.
  intros fm. split; [apply (CP_int _ _ _ _ _ 16 1); [reflexivity|reflexivity|lia|reflexivity|lia|change (2 ^ 31) with 2147483648; lia]|]. split; [vm_compute; reflexivity|].
  intros B X. split; [split; [vm_compute; discriminate|]|eexists; vm_compute; reflexivity].
  destruct (wrun (pcmW LittleEndian 2 1) (fun x => x) [0] true cafUpdate (openWrite (pcmW LittleEndian 2 1) (cafInit fm) cafFirst 1024 tt) (map Write [[[1]; [2]]; [[3]; [4]]])) as [st| | |] eqn:E; [|destruct B; vm_compute in E; discriminate..].
  assert (EF : rmap (fun st => fbytes (ws_file st)) (wrun (pcmW LittleEndian 2 1) (fun x => x) [0] true cafUpdate (openWrite (pcmW LittleEndian 2 1) (cafInit fm) cafFirst 1024 tt) (map Write [[[1]; [2]]; [[3]; [4]]])) = Ok (X ++ [0; 4; 0])) by (destruct B; vm_compute; reflexivity).
  rewrite E in EF. unfold rmap, rbind in EF. assert (EB : fbytes (ws_file st) = X ++ [0; 4; 0]) by congruence.
  intros i x Hx. exists [[[1]; [2]]; [[3]; [4]]], [], st. split; [reflexivity|]. split; [exact E|]. rewrite EB. rewrite nth_error_app1; [exact Hx|]. apply nth_error_Some. congruence.
Qed.
