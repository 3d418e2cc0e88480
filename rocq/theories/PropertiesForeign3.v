(** * C61, third part: CAF files of other programs *)
From Verif Require Import Prelude PreludeFacts ByteOrder FileIO Reader Writer Codecs IMAProofs HeaderIO FileRoundTrip Chunks Float FloatBits PacketTable PropertiesPacketTable CAF PropertiesCAF.
From Verif Require Import PropertiesIdentify PropertiesForeign PropertiesForeign2.

(** CAF chunks: tag, 64-bit size, contents without padding. *)
Definition cafBytes (l : list (list Z * list Z)) : list Z := concat (map (fun '(tag, content) => tag ++ be8 (zlen content) ++ content) l).
Definition cafFile (l : list (list Z * list Z)) : list Z := T_caff ++ [0; 1; 0; 0] ++ cafBytes l.
Lemma cafBytes_app l1 l2 : cafBytes (l1 ++ l2) = cafBytes l1 ++ cafBytes l2.
Proof. unfold cafBytes. now rewrite map_app, concat_app. Qed.
Lemma cafBytes_cons tag content l : cafBytes ((tag, content) :: l) = tag ++ be8 (zlen content) ++ content ++ cafBytes l.
Proof. unfold cafBytes. cbn [map concat]. rewrite <- !app_assoc. reflexivity. Qed.
Lemma cafBytes_len tag content l : zlen tag = 4 -> zlen (cafBytes ((tag, content) :: l)) = 12 + zlen content + zlen (cafBytes l).
Proof. intros L. rewrite cafBytes_cons, !zlen_app, L. unfold be8. rewrite sampleBytes_zlen. change (Z.of_nat 8) with 8. lia. Qed.

(** The chunk at [p], whose contents start at [p + 12], turns [s] into [s']. *)
Lemma caf_one {B : Build} host fuel b p s tag content rest s' f' : zskipn p b = tag ++ be8 (zlen content) ++ content ++ rest -> 0 <= p -> zlen tag = 4 -> zlen b < 2 ^ 62 ->
  cafChunk host s tag (zlen content) (mkFile b (p + 12)) = Ok (Some (s', f')) -> fbytes f' = b ->
  cafLoop host (S fuel) (zlen b) p s (mkFile b p) = cafLoop host fuel (zlen b) (p + 12 + zlen content) s' (mkFile b (p + 12 + zlen content)) /\ zskipn (p + 12 + zlen content) b = rest.
Proof.
  intros H Hp Lt Hl Hc Hf. change (2 ^ 62) with 4611686018427387904 in *. pose proof (zlen_nonneg content) as Zc.
  assert (Lb : p + 12 + zlen content <= zlen b).
  { assert (zlen (zskipn p b) = zlen (tag ++ be8 (zlen content) ++ content ++ rest)) as L by now rewrite H. rewrite zlen_skipn, !zlen_app, Lt in L by lia. unfold be8 in L. rewrite sampleBytes_zlen in L.
    pose proof (zlen_nonneg rest). change (Z.of_nat 8) with 8 in L. lia. }
  unfold be8 in H. cbn [cafLoop]. replace (p <? zlen b) with true by lia. cbn [negb]. cbv iota. htag H. hstep H. change (8 * Z.of_nat 8) with 64. change (2 ^ 64) with 18446744073709551616. change (Z.of_nat 8) with 8 in *.
  rewrite (Z.mod_small (zlen content)) by lia. unfold s64. rewrite sN_small by (change (2 ^ (64 - 1)) with 9223372036854775808; lia). cbv zeta.
  assert (E : cafLength (zlen b) (p + 12) tag (zlen content) = zlen content) by (unfold cafLength; replace (zlen content =? -1) with false by lia; rewrite andb_false_r; reflexivity).
  rewrite E. replace (p + 4 + 8) with (p + 12) in * by lia. unfold hbind at 1. rewrite Hc. cbn [rbind].
  rewrite (st_lift _ (p + 12 + zlen content)).
  2:{ unfold ck64. rewrite (proj2 (inS_spec 64 _)) by (change (2 ^ (64 - 1)) with 9223372036854775808; lia). reflexivity. }
  rewrite st_lseek by lia. rewrite Hf. split; [reflexivity|]. apply skip_field in H; [|lia]. exact H.
Qed.
Definition cafKnown : list (list Z) := [T_desc; T_data; T_pakt; T_kuki].
Definition cafUnknown (c : list Z * list Z) : Prop := zlen (fst c) = 4 /\ ~ In (fst c) cafKnown.
Lemma caf_skip {B : Build} host l : forall fuel b p s rest, Forall cafUnknown l -> zskipn p b = cafBytes l ++ rest -> 0 <= p -> zlen b < 2 ^ 62 ->
  cafLoop host (length l + fuel) (zlen b) p s (mkFile b p) = cafLoop host fuel (zlen b) (p + zlen (cafBytes l)) s (mkFile b (p + zlen (cafBytes l))) /\ zskipn (p + zlen (cafBytes l)) b = rest.
Proof.
  induction l as [|[tag content] l IH]; intros fuel b p s rest U H Hp Hl.
  - change (zlen (cafBytes [])) with 0. rewrite Z.add_0_r. auto.
  - apply Forall_cons_iff in U. destruct U as [[Lt Hu] U]. cbn [fst] in *. rewrite cafBytes_cons, <- !app_assoc in H. pose proof (zlen_nonneg content).
    assert (K : cafChunk host s tag (zlen content) (mkFile b (p + 12)) = Ok (Some (s, mkFile b (p + 12)))).
    { unfold cafChunk. unfold cafKnown in Hu. cbn [In] in Hu. rewrite !teq_not by (intros ->; apply Hu; tauto). reflexivity. }
    destruct (caf_one host (length l + fuel) b p s tag content (cafBytes l ++ rest) s _ H Hp Lt Hl K eq_refl) as [E1 H1]. cbn [length Nat.add]. rewrite E1.
    destruct (IH fuel b (p + 12 + zlen content) s rest U H1 ltac:(lia) Hl) as [E2 H2]. rewrite E2. rewrite cafBytes_len by exact Lt.
    replace (p + (12 + zlen content + zlen (cafBytes l))) with (p + 12 + zlen content + zlen (cafBytes l)) by lia. auto.
Qed.

(** Format identifier, flags, bits per channel, sample format, width, byte order, compression, frames per packet ([fpp] the field), bytes per packet for [ch] channels. *)
Inductive cafCode (host : order) (ch fpp : Z) : list Z -> Z -> Z -> sampfmt -> Z -> order -> compression -> Z -> Z -> Prop :=
| CC_int_be w : 1 <= w <= 32 -> cafCode host ch fpp [108;112;99;109] 0 w TwosComp w BigEndian CNone 1 ((w + 7) / 8 * ch)
| CC_int_le w : 1 <= w <= 32 -> cafCode host ch fpp [108;112;99;109] 2 w TwosComp w LittleEndian CNone 1 ((w + 7) / 8 * ch)
| CC_float_be : cafCode host ch fpp [108;112;99;109] 1 32 Float 32 BigEndian CNone 1 (4 * ch)
| CC_float_le : cafCode host ch fpp [108;112;99;109] 3 32 Float 32 LittleEndian CNone 1 (4 * ch)
| CC_double_be : cafCode host ch fpp [108;112;99;109] 1 64 Double 64 BigEndian CNone 1 (8 * ch)
| CC_double_le : cafCode host ch fpp [108;112;99;109] 3 64 Double 64 LittleEndian CNone 1 (8 * ch)
| CC_ulaw flags bits : cafCode host ch fpp [117;108;97;119] flags bits TwosComp 16 host CUlaw 1 ch
| CC_alaw flags bits : cafCode host ch fpp [97;108;97;119] flags bits TwosComp 16 host CAlaw 1 ch
| CC_ima4 flags bits : cafCode host ch fpp [105;109;97;52] flags bits TwosComp 16 host CIMA 64 (34 * ch)
| CC_alac16 bits : cafCode host ch fpp [97;108;97;99] 1 bits TwosComp 16 host CALAC fpp 0
| CC_alac20 bits : cafCode host ch fpp [97;108;97;99] 2 bits TwosComp 20 host CALAC fpp 0
| CC_alac24 bits : cafCode host ch fpp [97;108;97;99] 3 bits TwosComp 24 host CALAC fpp 0
| CC_alac32 bits : cafCode host ch fpp [97;108;97;99] 4 bits TwosComp 32 host CALAC fpp 0.

Definition descChunk (rateBits : Z) (id : list Z) (flags bpp fpp ch bits : Z) : list Z * list Z :=
  (T_desc, be8 rateBits ++ id ++ beU flags ++ beU bpp ++ beU fpp ++ beU ch ++ beU bits).
Definition audioChunk (edits : Z) (data : list Z) : list Z * list Z := (T_data, beU edits ++ data).

Lemma desc_code {B : Build} host s rb id flags bpp fpp ch bits sf w o c fpp' bpp' b p rest : cafCode host ch fpp id flags bits sf w o c fpp' bpp' ->
  0 <= rb < 2 ^ 64 -> 0 <= flags < 2 ^ 32 -> 0 <= fpp < 2 ^ 32 -> 0 < ch < 2 ^ 24 -> 0 <= bits < 2 ^ 32 -> 0 <= p -> zskipn p b = snd (descChunk rb id flags bpp fpp ch bits) ++ rest ->
  forall n, exists f', cafChunk host s T_desc n (mkFile b p) = Ok (Some (cafSetFmt s (mkFmt (of64 rb) sf w ch o c fpp' bpp'), f')) /\ fbytes f' = b.
Proof.
  intros Hcode Hr Hfl Hfp Hch Hbi Hp H n. change (2 ^ 24) with 16777216 in *. unfold cafChunk. change (teq T_desc T_desc) with true. cbv iota. unfold descChunk in H. cbn [snd] in H. rewrite <- !app_assoc in H. unfold be8, beU in H. unfold cafParseDesc.
  hstep H. assert (Lid : zlen id = 4) by (destruct Hcode; reflexivity). htag H. do 5 hstep H.
  change (8 * Z.of_nat 8) with 64. change (8 * Z.of_nat 4) with 32. rewrite (Z.mod_small rb), (Z.mod_small flags), (Z.mod_small fpp), (Z.mod_small bits), (Z.mod_small ch) by (change (2 ^ 32) with 4294967296 in *; lia).
  generalize (of64 rb). intros rate. generalize (bpp mod 2 ^ 32). intros bp. unfold cafDescTail. replace (ch =? 0) with false by lia. cbv zeta.
  replace (s32 ch) with ch by (symmetry; apply sN_small; [lia|change (2 ^ (32 - 1)) with 2147483648; lia]).
  destruct Hcode; repeat match goal with |- context [teq ?a ?b] => let v := eval vm_compute in (teq a b) in change (teq a b) with v end; cbv iota.
  - change (Z.testbit 0 1) with false. change (Z.testbit 0 0) with false. cbv iota. replace (s32 w) with w by (symmetry; apply sN_small; [lia|change (2 ^ (32 - 1)) with 2147483648; lia]).
    replace ((w <? 1) || (32 <? w)) with false by lia. assert (1 <= (w + 7) / 8 <= 4) by lia. assert ((w + 7) / 8 * ch <= 4 * 16777216) by nia.
    unfold hbind, hlift. rewrite bppPCM_ok by (try (change (2 ^ 31) with 2147483648); lia). eexists. split; reflexivity.
  - change (Z.testbit 2 1) with true. change (Z.testbit 2 0) with false. cbv iota. replace (s32 w) with w by (symmetry; apply sN_small; [lia|change (2 ^ (32 - 1)) with 2147483648; lia]).
    replace ((w <? 1) || (32 <? w)) with false by lia. assert (1 <= (w + 7) / 8 <= 4) by lia. assert ((w + 7) / 8 * ch <= 4 * 16777216) by nia.
    unfold hbind, hlift. rewrite bppPCM_ok by (try (change (2 ^ 31) with 2147483648); lia). eexists. split; reflexivity.
  - change (Z.testbit 1 1) with false. change (Z.testbit 1 0) with true. change (32 =? 32) with true. cbn [negb andb]. cbv iota. unfold hbind, hlift. rewrite (bppPCM_bytes 4 ch 32 eq_refl) by (try (change (2 ^ 31) with 2147483648); lia). eexists. split; reflexivity.
  - change (Z.testbit 3 1) with true. change (Z.testbit 3 0) with true. change (32 =? 32) with true. cbn [negb andb]. cbv iota. unfold hbind, hlift. rewrite (bppPCM_bytes 4 ch 32 eq_refl) by (try (change (2 ^ 31) with 2147483648); lia). eexists. split; reflexivity.
  - change (Z.testbit 1 1) with false. change (Z.testbit 1 0) with true. change (64 =? 32) with false. change (64 =? 64) with true. cbn [negb andb]. cbv iota. unfold hbind, hlift. rewrite (bppPCM_bytes 8 ch 64 eq_refl) by (try (change (2 ^ 31) with 2147483648); lia). eexists. split; reflexivity.
  - change (Z.testbit 3 1) with true. change (Z.testbit 3 0) with true. change (64 =? 32) with false. change (64 =? 64) with true. cbn [negb andb]. cbv iota. unfold hbind, hlift. rewrite (bppPCM_bytes 8 ch 64 eq_refl) by (try (change (2 ^ 31) with 2147483648); lia). eexists. split; reflexivity.
  - eexists. split; reflexivity.
  - eexists. split; reflexivity.
  - rewrite (st_lift _ (34 * ch)) by (unfold ck32; rewrite (proj2 (inS_spec 32 _)) by (change (2 ^ (32 - 1)) with 2147483648; lia); reflexivity).
    unfold u64. rewrite uN_small by (change (2 ^ 64) with 18446744073709551616; lia). eexists. split; reflexivity.
  - change (1 =? 1) with true. eexists. split; reflexivity.
  - change (2 =? 1) with false. change (2 =? 2) with true. eexists. split; reflexivity.
  - change (3 =? 1) with false. change (3 =? 2) with false. change (3 =? 3) with true. eexists. split; reflexivity.
  - change (4 =? 1) with false. change (4 =? 2) with false. change (4 =? 3) with false. change (4 =? 4) with true. eexists. split; reflexivity.
Qed.

Lemma audio_handled {B : Build} host s fm edits data b p rest : cs_fmt s = Some fm -> 0 <= p -> zskipn p b = snd (audioChunk edits data) ++ rest -> zlen b < 2 ^ 62 ->
  exists f', cafChunk host s T_data (zlen (snd (audioChunk edits data))) (mkFile b p) =
    Ok (Some (CafSt (Some fm) (p + 4) (zlen data) (computeTotal (cs_total s) (zlen data) fm) (cs_pt s) (cs_cookie s), f')) /\ fbytes f' = b.
Proof.
  intros Hf Hp H Hl. change (2 ^ 62) with 4611686018427387904 in *. unfold audioChunk in *. cbn [snd] in *. unfold cafChunk. repeat match goal with |- context [teq ?a ?b] => let v := eval vm_compute in (teq a b) in change (teq a b) with v end. cbv iota.
  rewrite zlen_app. unfold beU in *. rewrite sampleBytes_zlen. change (Z.of_nat 4) with 4. pose proof (zlen_nonneg data) as Zd.
  assert (Ld : zlen data < 4611686018427387904).
  { assert (zlen (zskipn p b) = zlen ((sampleBytes BigEndian 4 edits ++ data) ++ rest)) as L by now rewrite H. rewrite zlen_skipn, !zlen_app in L by lia. pose proof (zlen_nonneg rest). pose proof (zlen_nonneg (sampleBytes BigEndian 4 edits)). lia. }
  unfold cafParseData. rewrite <- app_assoc in H. hstep H. rewrite st_tell, st_length. cbn [fpos]. change (Z.of_nat 4) with 4. replace (4 + zlen data =? -1) with false by lia. cbv iota.
  rewrite (st_lift _ (zlen data)).
  2:{ unfold ck64. rewrite (proj2 (inS_spec 64 _)) by (change (2 ^ (64 - 1)) with 9223372036854775808; lia). f_equal; lia. }
  rewrite Hf. eexists. split; reflexivity.
Qed.

(** Description and data, with unknown chunks between and after them.  Compressed packets of one size or PCM. *)
Theorem C61_caf_codes :
  forall (B : Build) host rb id flags bpp fpp ch bits sf w o c fpp' bpp' edits data l1 l2 l3 fuel,
    cafCode host ch fpp id flags bits sf w o c fpp' bpp' -> 0 <= rb < 2 ^ 64 -> 0 <= flags < 2 ^ 32 -> 0 <= fpp < 2 ^ 32 -> 0 < ch < 2 ^ 24 -> 0 <= bits < 2 ^ 32 ->
    Forall cafUnknown (l1 ++ l2 ++ l3) ->
    let before := l1 ++ descChunk rb id flags bpp fpp ch bits :: l2 in
    let l := before ++ audioChunk edits data :: l3 in
    zlen (cafFile l) < 2 ^ 62 -> (length l <= fuel)%nat ->
    exists f', cafOpen host fuel (mkFile (cafFile l) 0) =
      Ok (Some (mkParsed (mkFmt (of64 rb) sf w ch o c fpp' bpp') (24 + zlen (cafBytes before)) (zlen data)
        (match c with CALAC => 0 | _ => zlen data / bpp' * fpp' end), f')).
Proof.
  intros B host rb id flags bpp fpp ch bits sf w o c fpp' bpp' edits data l1 l2 l3 fuel Hcode Hr Hfl Hfp Hch Hbi Hu before l Hl Hfu. change (2 ^ 62) with 4611686018427387904 in *.
  apply Forall_app in Hu as [U1 Hu]. apply Forall_app in Hu as [U2 U3]. pose proof (zlen_nonneg data) as Zd. unfold l, before in *. clear l before. set (b := cafFile _) in *.
  assert (H : zskipn 8 b = cafBytes l1 ++ cafBytes (descChunk rb id flags bpp fpp ch bits :: l2) ++ cafBytes (audioChunk edits data :: l3)).
  { unfold b, cafFile. rewrite !cafBytes_app, <- !app_assoc. exact (zskipn_exact (T_caff ++ [0; 1; 0; 0]) _). }
  rewrite !app_length in Hfu. cbn [length] in Hfu. clearbody b. unfold cafOpen, cafRead.
  rewrite hbind_assoc, st_seek, hbind_assoc, st_tell, hbind_assoc, st_length. cbn [fbytes fpos]. unfold flength. cbn [fbytes].
  pose proof (zlen_nonneg (cafBytes l1)) as Z1. pose proof (zlen_nonneg (cafBytes l2)) as Z2. pose proof (zlen_nonneg (cafBytes l3)) as Z3.
  replace fuel with (length l1 + S (length l2 + S (length l3 + (fuel - length l1 - length l2 - length l3 - 2))))%nat by lia. set (fu := (fuel - _ - _ - _ - 2)%nat). clearbody fu.
  unfold hbind. destruct (caf_skip host l1 (S (length l2 + S (length l3 + fu))) b 8 cafSt0 _ U1 H ltac:(lia) ltac:(change (2 ^ 62) with 4611686018427387904; lia)) as [-> H1]. clear H.
  set (p1 := 8 + zlen (cafBytes l1)) in *. set (dc := snd (descChunk rb id flags bpp fpp ch bits)) in *. change (descChunk rb id flags bpp fpp ch bits) with (T_desc, dc) in H1.
  assert (H1' : zskipn p1 b = T_desc ++ be8 (zlen dc) ++ dc ++ cafBytes l2 ++ cafBytes (audioChunk edits data :: l3)) by (rewrite H1, cafBytes_cons; clearbody dc; rewrite <- !app_assoc; reflexivity).
  clear H1. rename H1' into H1.
  assert (H12 : zskipn (p1 + 12) b = dc ++ cafBytes l2 ++ cafBytes (audioChunk edits data :: l3)).
  { pose proof H1 as H. apply skip_field in H; [|lia]. change (zlen T_desc) with 4 in H. unfold be8 in H. apply skip_sample in H; [|lia]. change (Z.of_nat 8) with 8 in H. replace (p1 + 4 + 8) with (p1 + 12) in H by lia. exact H. }
  destruct (desc_code host cafSt0 rb id flags bpp fpp ch bits sf w o c fpp' bpp' b (p1 + 12) _ Hcode Hr Hfl Hfp Hch Hbi ltac:(lia) H12 (zlen dc)) as (f1 & D1 & D2).
  destruct (caf_one host (length l2 + S (length l3 + fu)) b p1 cafSt0 T_desc dc _ _ f1 H1 ltac:(lia) eq_refl ltac:(change (2 ^ 62) with 4611686018427387904; lia) D1 D2) as [-> H2]. clear D1 D2 H1 H12 f1.
  pose proof (zlen_nonneg dc) as Zdc. set (fm := mkFmt (of64 rb) sf w ch o c fpp' bpp') in *.
  destruct (caf_skip host l2 (S (length l3 + fu)) b (p1 + 12 + zlen dc) (cafSetFmt cafSt0 fm) _ U2 H2 ltac:(lia) ltac:(change (2 ^ 62) with 4611686018427387904; lia)) as [-> H3]. clear H2.
  set (p2 := p1 + 12 + zlen dc + zlen (cafBytes l2)) in *. set (ac := snd (audioChunk edits data)) in *. change (audioChunk edits data) with (T_data, ac) in H3. rewrite cafBytes_cons in H3.
  assert (H12 : zskipn (p2 + 12) b = ac ++ cafBytes l3).
  { pose proof H3 as H. apply skip_field in H; [|lia]. change (zlen T_data) with 4 in H. unfold be8 in H. apply skip_sample in H; [|lia]. change (Z.of_nat 8) with 8 in H. replace (p2 + 4 + 8) with (p2 + 12) in H by lia. exact H. }
  destruct (audio_handled host (cafSetFmt cafSt0 fm) fm edits data b (p2 + 12) _ eq_refl ltac:(lia) H12 ltac:(change (2 ^ 62) with 4611686018427387904; lia)) as (f1 & D1 & D2). fold ac in D1.
  destruct (caf_one host (length l3 + fu) b p2 _ T_data ac _ _ f1 H3 ltac:(lia) eq_refl ltac:(change (2 ^ 62) with 4611686018427387904; lia) D1 D2) as [-> H4]. clear D1 D2 H12 f1.
  pose proof (zlen_nonneg ac) as Zac.
  assert (Lac : zlen ac = 4 + zlen data) by (unfold ac, audioChunk; cbn [snd]; rewrite zlen_app; unfold beU; rewrite sampleBytes_zlen; reflexivity).
  assert (Lb : zlen b = p2 + 12 + zlen ac + zlen (cafBytes l3)).
  { assert (zlen (zskipn p2 b) = zlen (T_data ++ be8 (zlen ac) ++ ac ++ cafBytes l3)) as L by now rewrite H3. rewrite zlen_skipn, !zlen_app in L by lia. unfold be8 in L. rewrite sampleBytes_zlen in L. change (zlen T_data) with 4 in L. change (Z.of_nat 8) with 8 in L. lia. }
  rewrite <- (app_nil_r (cafBytes l3)) in H4.
  match goal with |- context [cafLoop host _ _ _ ?s _] => destruct (caf_skip host l3 fu b (p2 + 12 + zlen ac) s _ U3 H4 ltac:(lia) ltac:(change (2 ^ 62) with 4611686018427387904; lia)) as [-> _] end.
  rewrite <- Lb. destruct fu; cbn [cafLoop]; rewrite Z.ltb_irrefl; cbn [negb]; cbv iota; unfold hret; cbn [rbind]; unfold cafParsed, hlift; cbn [cs_fmt rbind cs_first cs_dsize cs_total cafSetFmt cafSt0].
  all: assert (ET : computeTotal 0 (zlen data) fm = match c with CALAC => 0 | _ => zlen data / bpp' * fpp' end);
    [ | rewrite ET; eexists; do 3 f_equal; f_equal; change (descChunk rb id flags bpp fpp ch bits) with (T_desc, dc); rewrite cafBytes_app, zlen_app, cafBytes_len by reflexivity; unfold p2, p1; lia ].
  all: clear - Hcode Hch Zd Lb Lac Z1 Z2 Z3 Hl Zdc; assert (LD : zlen data < 4611686018427387904) by lia; change (2 ^ 24) with 16777216 in *; clear Lb Hl Lac;
    assert (T : forall d k, 0 < d -> 0 < k -> k <= 2 * d -> f_bpp fm = d -> f_fpp fm = k -> computeTotal 0 (zlen data) fm = zlen data / d * k);
    [ clear Hcode; intros d k Hd Hk Hkd <- <-; unfold computeTotal; replace (f_bpp fm =? 0) with false by lia; replace (f_fpp fm =? 0) with false by lia; cbn [orb];
      generalize dependent (f_fpp fm); generalize dependent (f_bpp fm); intros d Hd k Hk Hkd;
      assert (0 <= zlen data / d) by (apply Z.div_pos; lia); pose proof (Z.mul_div_le (zlen data) d Hd); assert (0 <= zlen data / d * k <= 2 * zlen data) by nia;
      unfold s64, u64; rewrite (uN_small 64 (zlen data)) by (change (2 ^ 64) with 18446744073709551616; lia);
      rewrite uN_small by (change (2 ^ 64) with 18446744073709551616; lia); apply sN_small; [lia|change (2 ^ (64 - 1)) with 9223372036854775808; lia]
    | destruct Hcode; try reflexivity; apply T; try reflexivity; try lia; try (assert (1 <= (w + 7) / 8) by lia; nia) ].
Qed.
Print Assumptions C61_caf_codes.
Example C61_caf_example : exists f', cafOpen (B := true) LittleEndian 3 (mkFile (cafFile [descChunk 0x40e5888000000000 [108;112;99;109] 2 4 1 2 16; ([99;104;97;110], [0;0;0]); audioChunk 0 [1;0;2;0;3;0;4;0]]) 0) =
  Ok (Some (mkParsed (mkFmt (of64 0x40e5888000000000) TwosComp 16 2 LittleEndian CNone 1 4) 83 8 2, f')).
Proof.
  exact (C61_caf_codes true LittleEndian 0x40e5888000000000 _ _ 4 1 2 16 _ _ _ _ _ _ 0 [1;0;2;0;3;0;4;0] [] [([99;104;97;110], [0;0;0])] [] 3 (CC_int_le _ _ _ 16 ltac:(lia)) ltac:(lia) ltac:(lia) ltac:(lia) ltac:(lia) ltac:(lia)
    ltac:(repeat constructor; cbn; intuition discriminate) ltac:(vm_compute; reflexivity) ltac:(cbn; lia)).
Qed.

(** ** Packets of varying size (Apple Lossless): cookie, packet table and data in any order *)
Inductive cafAll {B : Build} (host : order) (b : list Z) : Z -> cafSt -> list (list Z * list Z) -> cafSt -> Prop :=
| CA_nil p s : cafAll host b p s [] s
| CA_cons p s tag content l s' s'' : zlen tag = 4 ->
    (zskipn (p + 12) b = content ++ cafBytes l -> exists f', cafChunk host s tag (zlen content) (mkFile b (p + 12)) = Ok (Some (s', f')) /\ fbytes f' = b) ->
    cafAll host b (p + 12 + zlen content) s' l s'' -> cafAll host b p s ((tag, content) :: l) s''.
Lemma caf_all {B : Build} host b : zlen b < 2 ^ 62 -> forall l p s s' fuel, cafAll host b p s l s' -> zskipn p b = cafBytes l -> 0 <= p -> p <= zlen b -> (length l <= fuel)%nat ->
  exists f', cafLoop host fuel (zlen b) p s (mkFile b p) = Ok (Some (s', f')).
Proof.
  intros Hl l. induction l as [|[tag content] l IH]; intros p s s' fuel HA H Hp Hpb Hfu.
  - inversion HA; subst. assert (p = zlen b). { assert (zlen (zskipn p b) = 0) as L by now rewrite H. rewrite zlen_skipn in L by lia. lia. }
    destruct fuel; cbn [cafLoop]; replace (p <? zlen b) with false by lia; eexists; reflexivity.
  - inversion_clear HA as [|? ? ? ? ? s1 ? Lt Hc HA']. destruct fuel as [|fuel]; [cbn in Hfu; lia|]. rewrite cafBytes_cons in H. pose proof (zlen_nonneg content).
    assert (H12 : zskipn (p + 12) b = content ++ cafBytes l).
    { pose proof H as K. apply skip_field in K; [|lia]. rewrite Lt in K. unfold be8 in K. apply skip_sample in K; [|lia]. change (Z.of_nat 8) with 8 in K. replace (p + 4 + 8) with (p + 12) in K by lia. exact K. }
    destruct (Hc H12) as (f1 & Hc1 & Hf). destruct (caf_one host fuel b p s tag content _ s1 f1 H Hp Lt Hl Hc1 Hf) as [-> H2]. apply IH; [exact HA'|exact H2|lia| |cbn in Hfu; lia].
    assert (zlen (zskipn p b) = zlen (tag ++ be8 (zlen content) ++ content ++ cafBytes l)) as L by now rewrite H. rewrite zlen_skipn, !zlen_app in L by lia. unfold be8 in L. rewrite sampleBytes_zlen in L. change (Z.of_nat 8) with 8 in L. pose proof (zlen_nonneg (cafBytes l)). lia.
Qed.

(** The cookie, the packet table and the data, once each. *)
Theorem C61_caf_packet_table :
  forall (B : Build) host rb flags bpp fpp ch bits w edits data cookie t l fuel,
    cafCode host ch fpp [97;108;97;99] flags bits TwosComp w host CALAC fpp 0 -> 0 <= rb < 2 ^ 64 -> 0 <= fpp < 2 ^ 32 -> 0 < ch < 2 ^ 24 -> 0 <= bits < 2 ^ 32 ->
    Forall (fun x => 1 <= x < 2 ^ 32) (pt_sizes t) -> pt_sizes t <> [] ->
    - 2 ^ 63 <= pt_valid t < 2 ^ 63 -> - 2 ^ 31 <= pt_priming t < 2 ^ 31 -> - 2 ^ 31 <= pt_remainder t < 2 ^ 31 ->
    let k := (T_kuki, cookie) in let d := audioChunk edits data in let p := (T_pakt, paktBody t) in
    In l [[k; d; p]; [k; p; d]; [d; k; p]; [d; p; k]; [p; k; d]; [p; d; k]] ->
    let file := cafFile (descChunk rb [97;108;97;99] flags bpp fpp ch bits :: l) in
    zlen file < 2 ^ 62 -> (4 <= fuel)%nat ->
    exists f' first before after, cafOpen host fuel (mkFile file 0) = Ok (Some (mkParsed (mkFmt (of64 rb) TwosComp w ch host CALAC fpp 0) first (zlen data) (pt_valid t), f')) /\
      cafRead host fuel (mkFile file 0) = Ok (Some (CafSt (Some (mkFmt (of64 rb) TwosComp w ch host CALAC fpp 0)) first (zlen data) (pt_valid t) (Some t) (Some cookie), f')) /\
      file = before ++ data ++ after /\ zlen before = first.
Proof.
  intros B host rb flags bpp fpp ch bits w edits data cookie t l fuel Hcode Hr Hfp Hch Hbi Ht1 Ht2 Ht3 Ht4 Ht5 ck da pk HP file Hl Hfu.
  assert (Hfl : 0 <= flags < 2 ^ 32) by (change (2 ^ 32) with 4294967296; inversion Hcode; lia).
  set (fm := mkFmt (of64 rb) TwosComp w ch host CALAC fpp 0). set (dc := snd (descChunk rb [97;108;97;99] flags bpp fpp ch bits)).
  set (b := file) in *.
  assert (Hb : b = (T_caff ++ [0; 1; 0; 0]) ++ cafBytes ((T_desc, dc) :: l)) by (unfold b, file, cafFile; rewrite <- app_assoc; reflexivity).
  assert (H8 : zskipn 8 b = cafBytes ((T_desc, dc) :: l)) by (rewrite Hb; exact (zskipn_exact (T_caff ++ [0; 1; 0; 0]) _)).
  assert (L8 : 8 <= zlen b) by (rewrite Hb, zlen_app; change (zlen (T_caff ++ [0; 1; 0; 0])) with 8; pose proof (zlen_nonneg (cafBytes ((T_desc, dc) :: l))); lia).
  clearbody b. clear file.
  (* effects of the three chunks *)
  assert (Kk : forall s p rest, 0 <= p -> zskipn p b = cookie ++ rest -> exists f', cafChunk host s T_kuki (zlen cookie) (mkFile b p) = Ok (Some (CafSt (cs_fmt s) (cs_first s) (cs_dsize s) (cs_total s) (cs_pt s) (Some cookie), f')) /\ fbytes f' = b).
  { intros s p rest Hp H. pose proof (zlen_nonneg cookie). unfold cafChunk. repeat match goal with |- context [teq ?a ?b] => let v := eval vm_compute in (teq a b) in change (teq a b) with v end. cbv iota.
    unfold cafParseCookie. replace (zlen cookie <? 0) with false by lia. hstep H. rewrite Z.eqb_refl. eexists. split; reflexivity. }
  assert (Kp : forall s p rest, 0 <= p -> zskipn p b = paktBody t ++ rest -> exists f', cafChunk host s T_pakt (zlen (paktBody t)) (mkFile b p) = Ok (Some (CafSt (cs_fmt s) (cs_first s) (cs_dsize s) (pt_valid t) (Some t) (cs_cookie s), f')) /\ fbytes f' = b).
  { intros s p rest Hp H. unfold cafChunk. repeat match goal with |- context [teq ?a ?b] => let v := eval vm_compute in (teq a b) in change (teq a b) with v end. cbv iota.
    assert (Hpb : p <= zlen b).
    { assert (zlen (zskipn p b) = zlen (paktBody t ++ rest)) as L by now rewrite H. rewrite zlen_skipn, zlen_app in L by lia. unfold paktBody in L. rewrite !zlen_app, !sampleBytes_zlen in L.
      pose proof (zlen_nonneg rest). pose proof (zlen_nonneg (paktTable (pt_sizes t))). change (Z.of_nat 8) with 8 in L. lia. }
    assert (Hs : zlen (pt_sizes t) < 2 ^ 63).
    { assert (zlen (zskipn p b) = zlen (paktBody t ++ rest)) as L by now rewrite H. rewrite zlen_skipn, zlen_app in L by lia. unfold paktBody in L. rewrite !zlen_app in L.
      assert (G : zlen (pt_sizes t) <= zlen (paktTable (pt_sizes t))).
      { clear. induction (pt_sizes t) as [|x l IH]; [reflexivity|]. rewrite zlen_cons. unfold paktTable in *. cbn [flat_map]. rewrite zlen_app.
        assert (1 <= zlen (encodeBER (u32 x))); [|lia]. unfold encodeBER. repeat destruct (_ =? _); cbn [zlen]; unfold zlen; cbn [length]; lia. }
      pose proof (zlen_nonneg rest). pose proof (zlen_nonneg (sampleBytes BigEndian 8 (zlen (pt_sizes t)))). pose proof (zlen_nonneg (sampleBytes BigEndian 8 (pt_valid t))).
      pose proof (zlen_nonneg (sampleBytes BigEndian 4 (pt_priming t))). pose proof (zlen_nonneg (sampleBytes BigEndian 4 (pt_remainder t))).
      change (2 ^ 62) with 4611686018427387904 in Hl. change (2 ^ 63) with 9223372036854775808. lia. }
    pose proof (C39_packet_table_roundtrip B t (zfirstn p b) rest Ht1 Ht2 Ht3 Ht4 Ht5 Hs) as K. cbv zeta in K.
    rewrite <- H, zfirstn_skipn in K by lia. rewrite zlen_firstn in K by lia. rewrite Z.min_l in K by lia.
    unfold cafParsePakt, hbind. rewrite K. cbn [rbind]. eexists. split; reflexivity. }
  assert (Kd : forall s p rest, cs_fmt s = Some fm -> 0 <= p -> zskipn p b = snd (audioChunk edits data) ++ rest ->
     exists f', cafChunk host s T_data (zlen (snd (audioChunk edits data))) (mkFile b p) = Ok (Some (CafSt (Some fm) (p + 4) (zlen data) (cs_total s) (cs_pt s) (cs_cookie s), f')) /\ fbytes f' = b).
  { intros s p rest Hs Hp H. destruct (audio_handled host s fm edits data b p rest Hs Hp H Hl) as (f' & E & Ef). exists f'. split; [rewrite E; reflexivity|exact Ef]. }
  (* the description *)
  assert (Kdesc : forall rest, zskipn 20 b = dc ++ rest -> exists f', cafChunk host cafSt0 T_desc (zlen dc) (mkFile b 20) = Ok (Some (cafSetFmt cafSt0 fm, f')) /\ fbytes f' = b).
  { intros rest H. exact (desc_code host cafSt0 rb [97;108;97;99] flags bpp fpp ch bits TwosComp w host CALAC fpp 0 b 20 rest Hcode Hr Hfl Hfp Hch Hbi ltac:(lia) H (zlen dc)). }
  set (ac := snd (audioChunk edits data)) in *. change (audioChunk edits data) with (T_data, ac) in HP.
  pose proof (zlen_nonneg dc) as Zdc. pose proof (zlen_nonneg ac) as Zac. pose proof (zlen_nonneg cookie) as Zck. pose proof (zlen_nonneg (paktBody t)) as Zpk.
  assert (Fin : forall l1 l2, l = l1 ++ (T_data, ac) :: l2 -> length l = 3%nat ->
      let first := 8 + zlen (cafBytes ((T_desc, dc) :: l1)) + 16 in
      cafAll host b 8 cafSt0 ((T_desc, dc) :: l) (CafSt (Some fm) first (zlen data) (pt_valid t) (Some t) (Some cookie)) ->
      exists f' first before after, cafOpen host fuel (mkFile b 0) = Ok (Some (mkParsed fm first (zlen data) (pt_valid t), f')) /\
      cafRead host fuel (mkFile b 0) = Ok (Some (CafSt (Some fm) first (zlen data) (pt_valid t) (Some t) (Some cookie), f')) /\ b = before ++ data ++ after /\ zlen before = first).
  { intros l1 l2 El Ll first HA. destruct (caf_all host b Hl _ 8 cafSt0 _ fuel HA H8 ltac:(lia) L8) as (f' & E).
    { cbn [length]. rewrite Ll. exact Hfu. }
    exists f', first, ((T_caff ++ [0; 1; 0; 0]) ++ cafBytes ((T_desc, dc) :: l1) ++ T_data ++ be8 (zlen ac) ++ beU edits), (cafBytes l2).
    assert (ER : cafRead host fuel (mkFile b 0) = Ok (Some (CafSt (Some fm) first (zlen data) (pt_valid t) (Some t) (Some cookie), f'))).
    { unfold cafRead. rewrite st_seek. cbn [fbytes]. rewrite st_tell, st_length. cbn [fpos]. unfold flength. cbn [fbytes]. exact E. }
    split; [unfold cafOpen, hbind; rewrite ER; reflexivity|]. split; [exact ER|]. split.
    - rewrite Hb, El. change ((T_desc, dc) :: l1 ++ (T_data, ac) :: l2) with (((T_desc, dc) :: l1) ++ (T_data, ac) :: l2). rewrite cafBytes_app, (cafBytes_cons T_data ac).
      set (x := cafBytes ((T_desc, dc) :: l1)). clearbody x. rewrite <- !app_assoc. unfold ac at 2, audioChunk. cbn [snd]. rewrite <- !app_assoc. reflexivity.
    - rewrite !zlen_app. unfold be8, beU. rewrite !sampleBytes_zlen. unfold first. change (zlen T_data) with 4. change (zlen T_caff) with 4. change (zlen [0; 1; 0; 0]) with 4. change (Z.of_nat 8) with 8. change (Z.of_nat 4) with 4. lia. }
  change da with (T_data, ac) in *. unfold ck, pk in *. clear ck da pk.
  assert (P : forall l1, 8 + zlen (cafBytes l1) + 16 = 8 + zlen (cafBytes l1) + 12 + 4) by (intros; lia).
  cbn [In] in HP. destruct HP as [<-|[<-|[<-|[<-|[<-|[<-|[]]]]]]].
  Local Ltac step_k Kk := econstructor; [reflexivity|let H := fresh in intros H; eapply Kk; [lia|exact H]|].
  Local Ltac step_d Kd := econstructor; [reflexivity|let H := fresh in intros H; eapply Kd; [reflexivity|lia|exact H]|].
  Local Ltac step_end := cbn [cs_fmt cs_first cs_dsize cs_total cs_pt cs_cookie cafSetFmt];
    match goal with |- cafAll _ _ _ ?s [] ?s' => replace s' with s; [constructor|] end; f_equal; rewrite !cafBytes_len by reflexivity; change (zlen (cafBytes [])) with 0; lia.
  - apply (Fin [(T_kuki, cookie)] [(T_pakt, paktBody t)] eq_refl eq_refl). econstructor; [reflexivity|apply Kdesc|]. step_k Kk. step_d Kd. step_k Kp. step_end.
  - apply (Fin [(T_kuki, cookie); (T_pakt, paktBody t)] [] eq_refl eq_refl). econstructor; [reflexivity|apply Kdesc|]. step_k Kk. step_k Kp. step_d Kd. step_end.
  - apply (Fin [] [(T_kuki, cookie); (T_pakt, paktBody t)] eq_refl eq_refl). econstructor; [reflexivity|apply Kdesc|]. step_d Kd. step_k Kk. step_k Kp. step_end.
  - apply (Fin [] [(T_pakt, paktBody t); (T_kuki, cookie)] eq_refl eq_refl). econstructor; [reflexivity|apply Kdesc|]. step_d Kd. step_k Kp. step_k Kk. step_end.
  - apply (Fin [(T_pakt, paktBody t); (T_kuki, cookie)] [] eq_refl eq_refl). econstructor; [reflexivity|apply Kdesc|]. step_k Kp. step_k Kk. step_d Kd. step_end.
  - apply (Fin [(T_pakt, paktBody t)] [(T_kuki, cookie)] eq_refl eq_refl). econstructor; [reflexivity|apply Kdesc|]. step_k Kp. step_d Kd. step_k Kk. step_end.
Qed.
Print Assumptions C61_caf_packet_table.
Example C61_packet_table_example : exists f' first before after,
  let file := cafFile [descChunk 0x40e5888000000000 [97;108;97;99] 1 0 4096 2 0; (T_kuki, [1;2;3]); (T_pakt, paktBody (mkPT 5000 0 0 [4; 3])); audioChunk 0 [1;2;3;4;5;6;7]] in
  cafOpen (B := true) LittleEndian 4 (mkFile file 0) = Ok (Some (mkParsed (mkFmt (of64 0x40e5888000000000) TwosComp 16 2 LittleEndian CALAC 4096 0) first 7 5000, f')) /\ zlen before = first /\ file = before ++ [1;2;3;4;5;6;7] ++ after.
Proof.
  destruct (C61_caf_packet_table true LittleEndian 0x40e5888000000000 1 0 4096 2 0 16 0 [1;2;3;4;5;6;7] [1;2;3] (mkPT 5000 0 0 [4; 3]) _ 4 (CC_alac16 _ _ _ _) ltac:(lia) ltac:(lia) ltac:(lia) ltac:(lia)
    ltac:(repeat constructor; cbn; lia) ltac:(discriminate) ltac:(cbn; lia) ltac:(cbn; lia) ltac:(cbn; lia) (or_intror (or_introl eq_refl)) ltac:(vm_compute; reflexivity) ltac:(lia)) as (f' & first & before & after & E & _ & EF & EB).
  exists f', first, before, after. exact (conj E (conj EB EF)).
Qed.
