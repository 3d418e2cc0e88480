(** * C35, C38, C57: WAVE files, written and read back; opening any WAVE file *)
From Verif Require Import Prelude PreludeFacts ByteOrder FileIO Reader ReaderSpec PropertiesReader G711.
From Verif Require Import Writer WriterSpec WriterProofs WriterHistory Codecs CodecsProofs PropertiesWriter PropertiesRoundTrip HeaderIO FileRoundTrip Chunks VOC SampleVision PropertiesNIST IMAProofs WAVE.
From Verif Require MSADPCM.

(** ** What can be written *)
(** Formats: integers of 1-4 whole bytes (unsigned only for one byte), IEEE floats, G.711, IMA and Microsoft ADPCM; the
    block size has to fit in 16 bits and the byte rate in 32 bits. *)
Inductive waveFmt (host : order) (fm : format) : Prop :=
| WF_int n ch rate : fm = mkFmt rate (if n =? 1 then Unsigned else TwosComp) (8 * n) ch LittleEndian CNone 1 (n * ch) ->
    1 <= n <= 4 -> 0 < ch -> n * ch < 2 ^ 16 -> 0 <= rate -> rate * (n * ch) < 2 ^ 32 -> waveFmt host fm
| WF_float ch rate : fm = mkFmt rate Float 32 ch LittleEndian CNone 1 (4 * ch) -> 0 < ch -> 4 * ch < 2 ^ 16 -> 0 <= rate -> rate * (4 * ch) < 2 ^ 32 -> waveFmt host fm
| WF_double ch rate : fm = mkFmt rate Double 64 ch LittleEndian CNone 1 (8 * ch) -> 0 < ch -> 8 * ch < 2 ^ 16 -> 0 <= rate -> rate * (8 * ch) < 2 ^ 32 -> waveFmt host fm
| WF_g711 c ch rate : fm = mkFmt rate TwosComp 16 ch host c 1 ch -> c = CUlaw \/ c = CAlaw -> 0 < ch < 2 ^ 16 -> 0 <= rate -> rate * ch < 2 ^ 32 -> waveFmt host fm
| WF_ima ch rate : fm = mkFmt rate TwosComp 16 ch host CIMA 505 (256 * ch) -> 0 < ch < 2 ^ 8 -> 0 <= rate -> rate * ch < 2 ^ 32 -> waveFmt host fm
| WF_ms ch rate : fm = mkFmt rate TwosComp 16 ch host CMSADPCM 500 (256 * ch) -> 1 <= ch <= 2 -> 0 <= rate -> rate * ch < 2 ^ 32 -> waveFmt host fm.

(** Metadata: miscellaneous data of the six kinds completeSetup lets through; markers with different ids, a position that
    fits in 32 bits, and C strings for name and comment. *)
Definition validMisc (m : Z * list Z) : Prop := waveMiscTag (fst m) <> None.
Definition cString (s : list Z) : Prop := Forall (fun x => x <> 0) s.
Definition validMark (m : wmarker) : Prop := - 2 ^ 31 <= wm_id m < 2 ^ 31 /\ 0 <= wm_pos m < 2 ^ 32 /\ cString (wm_name m) /\ cString (wm_comment m).
Definition validExtra (x : wextra) : Prop := Forall validMisc (wx_misc x) /\ Forall validMark (wx_marks x) /\ NoDup (map wm_id (wx_marks x)).
(** Metadata may change between opening and closing, but not its layout. *)
Definition sameLayout (x y : wextra) : Prop :=
  map (fun m => zlen (snd m)) (wx_misc x) = map (fun m => zlen (snd m)) (wx_misc y) /\
  map (fun m => (zlen (wm_name m), zlen (wm_comment m))) (wx_marks x) = map (fun m => (zlen (wm_name m), zlen (wm_comment m))) (wx_marks y).

(** ** Reading the chunks *)
Lemma zstring_len s : zlen (zstring s) = zlen s + 1 + (zlen s + 1) mod 2.
Proof. unfold zstring. rewrite !zlen_app. change (zlen [0]) with 1. destruct (_ =? 0) eqn:E; [change (zlen (@nil Z)) with 0|change (zlen [0]) with 1]; lia. Qed.
Lemma zstring_text s : cString s -> markText (zstring s) = Ok s.
Proof.
  intros H. unfold markText, zstring.
  assert (E : existsb (Z.eqb 0) (s ++ [0] ++ (if (zlen s + 1) mod 2 =? 0 then [] else [0])) = true) by (rewrite existsb_app; cbn; apply orb_true_r).
  rewrite E. f_equal. clear E. generalize (if (zlen s + 1) mod 2 =? 0 then [] else [0]). intros r. induction H as [|x s Hx H IH]; [reflexivity|].
  cbn [app cstr]. replace (x =? 0) with false by lia. f_equal. exact IH.
Qed.
Lemma infoEntry_len m : validMisc m -> zlen (infoEntry m) = 8 + zlen (snd m) + zlen (snd m) mod 2.
Proof.
  intros H. unfold infoEntry. destruct (waveMiscTag (fst m)) as [tag|] eqn:E; [|contradiction].
  assert (zlen tag = 4). { clear H. unfold waveMiscTag in E. repeat match type of E with (if ?b then _ else _) = _ => destruct b end; inversion E; reflexivity. }
  unfold chunk. rewrite !zlen_app, sampleBytes_zlen. change (Z.of_nat 4) with 4. destruct (_ =? 0) eqn:E2; [change (zlen (@nil Z)) with 0|change (zlen [0]) with 1]; lia.
Qed.
Lemma miscTag_type ty tag : waveMiscTag ty = Some tag -> zlen tag = 4 /\ waveMiscType tag = Some ty.
Proof.
  unfold waveMiscTag. intros E.
  repeat match type of E with (if ?b then _ else _) = _ => destruct b eqn:?; [inversion E; split; [reflexivity|]; apply Z.eqb_eq in Heqb; subst ty; reflexivity|clear Heqb] end. discriminate.
Qed.
Definition miscFound (ms : list (Z * list Z)) : list (Z * Z * list Z) := map (fun m => (fst m, zlen (snd m), snd m)) ms.

Lemma infoLoop_entries ms : forall s b p rest fuel, Forall validMisc ms -> 0 <= p -> zskipn p b = concat (map infoEntry ms) ++ rest -> zlen (concat (map infoEntry ms)) < 2 ^ 32 ->
  (length ms <= fuel)%nat ->
  infoLoop fuel (p + zlen (concat (map infoEntry ms))) s (mkFile b p) = Ok (Some (withMisc s (wv_misc s ++ miscFound ms), mkFile b (p + zlen (concat (map infoEntry ms))))).
Proof.
  induction ms as [|m ms IH]; intros s b p rest fuel Hv Hp H Hl Hf.
  - cbn [map concat]. change (zlen []) with 0. rewrite Z.add_0_r. destruct fuel; cbn [infoLoop]; rewrite st_tell; cbn [fpos]; rewrite Z.ltb_irrefl; cbn [negb]; unfold hret; cbn [miscFound map]; rewrite app_nil_r; destruct s; reflexivity.
  - apply Forall_cons_iff in Hv. destruct Hv as [Hm Hv]. pose proof (infoEntry_len m Hm) as Le. cbn [map concat] in *. rewrite zlen_app in *. rewrite Le in *.
    pose proof (zlen_nonneg (snd m)) as Z1. pose proof (zlen_nonneg (concat (map infoEntry ms))) as Z2. change (2 ^ 32) with 4294967296 in *.
    destruct fuel as [|fuel]; [cbn [length] in Hf; lia|]. cbn [infoLoop]. rewrite st_tell. cbn [fpos]. replace (p <? _) with true by lia. cbn [negb].
    rewrite <- app_assoc in H. pose proof H as H'. apply skip_field in H'; [|lia]. rewrite Le in H'.
    unfold infoEntry in H at 1. unfold validMisc in Hm. destruct (waveMiscTag (fst m)) as [tag|] eqn:E; [|congruence]. destruct (miscTag_type _ _ E) as [Lt Et].
    unfold chunk in H. rewrite <- !app_assoc in H. hfield H 4; [exact Lt|]. hstep H. change (Z.of_nat 4) with 4 in *. change (8 * 4) with 32. change (2 ^ 32) with 4294967296. rewrite (Z.mod_small (zlen (snd m))) by lia.
    rewrite Et. unfold hbind at 1. hfield H (zlen (snd m)); [reflexivity|]. unfold hret at 1. cbn [rbind].
    match goal with |- context [withMisc s ?l] => set (s1 := withMisc s l) end.
    assert (G : infoLoop fuel (p + (8 + zlen (snd m) + zlen (snd m) mod 2 + zlen (concat (map infoEntry ms)))) s1 (mkFile b (p + (8 + zlen (snd m) + zlen (snd m) mod 2))) =
      Ok (Some (withMisc s (wv_misc s ++ miscFound (m :: ms)), mkFile b (p + (8 + zlen (snd m) + zlen (snd m) mod 2 + zlen (concat (map infoEntry ms))))))).
    { rewrite Z.add_assoc. rewrite (IH s1 b (p + (8 + zlen (snd m) + zlen (snd m) mod 2)) rest fuel Hv ltac:(lia) H') by (cbn [length] in Hf; lia). unfold s1. cbn [wv_misc withMisc]. rewrite <- app_assoc. reflexivity. }
    destruct (zlen (snd m) mod 2 =? 0) eqn:E2.
    + rewrite st_ret. replace (p + 4 + 4 + zlen (snd m)) with (p + (8 + zlen (snd m) + zlen (snd m) mod 2)) by lia. exact G.
    + rewrite st_skip. cbn [fbytes fpos]. replace (p + 4 + 4 + zlen (snd m) + 1) with (p + (8 + zlen (snd m) + zlen (snd m) mod 2)) by lia. exact G.
Qed.

Lemma info_handles {B : Build} host s ms : Forall validMisc ms -> 4 + zlen (concat (map infoEntry ms)) < 2 ^ 32 ->
  handles (waveChunk host) s T_LIST (4 + zlen (concat (map infoEntry ms))) (T_INFO ++ concat (map infoEntry ms)) (withMisc s (wv_misc s ++ miscFound ms)).
Proof.
  intros Hv Hl b p rest Hp H. unfold waveChunk.
  repeat match goal with |- context [teq ?a ?b] => let v := eval vm_compute in (teq a b) in change (teq a b) with v end. cbv iota. cbn [orb].
  unfold parseList. rewrite <- app_assoc in H. hfield H 4; [reflexivity|]. rewrite st_tell, st_length. cbn [fpos].
  repeat match goal with |- context [teq ?a ?b] => let v := eval vm_compute in (teq a b) in change (teq a b) with v end. cbv iota.
  pose proof (zlen_nonneg (concat (map infoEntry ms))) as Z1. replace (4 + zlen (concat (map infoEntry ms)) - 4) with (zlen (concat (map infoEntry ms))) by lia.
  unfold u32. rewrite uN_small by lia.
  assert (Lm : (length ms <= S (Z.to_nat (flength (mkFile b (p + 4)))))%nat).
  { assert (L : zlen (concat (map infoEntry ms)) <= zlen b).
    { pose proof (f_equal zlen H) as E. rewrite zlen_app in E. pose proof (zlen_nonneg rest). rewrite zlen_skipn in E by lia. pose proof (zlen_nonneg b). lia. }
    assert (L2 : Z.of_nat (length ms) <= zlen (concat (map infoEntry ms))).
    { clear - Hv. induction Hv as [|m ms Hm Hv IH]; [reflexivity|]. cbn [map concat length]. rewrite zlen_app, infoEntry_len by exact Hm. pose proof (zlen_nonneg (snd m)). lia. }
    unfold flength. cbn [fbytes]. lia. }
  rewrite (infoLoop_entries ms s b (p + 4) rest) by (auto; lia). eexists. split; reflexivity.
Qed.

(** Cue points: ids and positions first, names and comments later. *)
Definition freshMark (m : wmarker) : wname := WName (wm_id m) (wm_pos m) [0] [0].
Definition foundMark (m : wmarker) : wname := WName (wm_id m) (wm_pos m) (zstring (wm_name m)) (zstring (wm_comment m)).
Lemma mark_id_ok m : validMark m -> s32 (wm_id m mod 4294967296) = wm_id m /\ wm_pos m mod 4294967296 = wm_pos m.
Proof.
  intros (H1 & H2 & _). change (2 ^ 31) with 2147483648 in *. change (2 ^ 32) with 4294967296 in *. split; [|apply Z.mod_small; lia].
  unfold s32, sN. change (2 ^ 32) with 4294967296. change (2 ^ (32 - 1)) with 2147483648. lia.
Qed.
Lemma cueEntry_len i m : zlen (cueEntry i m) = 24.
Proof. unfold cueEntry, le4. rewrite !zlen_app, !sampleBytes_zlen. reflexivity. Qed.
Lemma cueEntries_len ms : forall i, zlen (cueEntries i ms) = 24 * zlen ms.
Proof. induction ms as [|m ms IH]; intros i; [reflexivity|]. cbn [cueEntries]. rewrite zlen_app, cueEntry_len, IH, zlen_cons. lia. Qed.
Lemma parseCueEntries_ok ms : forall i b p rest, Forall validMark ms -> 0 <= p -> zskipn p b = cueEntries i ms ++ rest ->
  parseCueEntries (length ms) (mkFile b p) = Ok (Some (map freshMark ms, mkFile b (p + 24 * zlen ms))).
Proof.
  induction ms as [|m ms IH]; intros i b p rest Hv Hp H.
  - cbn. rewrite Z.add_0_r. reflexivity.
  - apply Forall_cons_iff in Hv. destruct Hv as [Hm Hv]. destruct (mark_id_ok m Hm) as [E1 E2]. cbn [cueEntries] in H. rewrite <- app_assoc in H.
    pose proof H as H'. apply skip_field in H'; [|lia]. rewrite cueEntry_len in H'. unfold cueEntry, le4 in H. rewrite <- !app_assoc in H.
    cbn [length parseCueEntries]. do 2 hstep H. change T_data with (sampleBytes LittleEndian 4 1635017060) in H. do 4 hstep H.
    change (8 * Z.of_nat 4) with 32. change (2 ^ 32) with 4294967296. change (Z.of_nat 4) with 4.
    unfold hbind. replace (p + 4 + 4 + 4 + 4 + 4 + 4) with (p + 24) by lia. rewrite (IH (S i) b (p + 24) rest Hv ltac:(lia) H'). cbn [rbind]. unfold hret. rewrite E1, E2.
    cbn [map]. unfold freshMark at 3. rewrite zlen_cons. do 4 f_equal. lia.
Qed.
Lemma cue_handles {B : Build} host s ms n : Forall validMark ms -> zlen ms < 2 ^ 31 ->
  handles (waveChunk host) s T_cue n (le4 (zlen ms) ++ cueEntries 0 ms) (withMarks s (map freshMark ms)).
Proof.
  intros Hv Hl b p rest Hp H. pose proof (zlen_nonneg ms). unfold waveChunk. change (2 ^ 31) with 2147483648 in *.
  repeat match goal with |- context [teq ?a ?b] => let v := eval vm_compute in (teq a b) in change (teq a b) with v end. cbv iota. cbn [orb].
  unfold parseCues. rewrite <- app_assoc in H. unfold le4 in H. hstep H. change (8 * Z.of_nat 4) with 32. change (2 ^ 32) with 4294967296. rewrite (Z.mod_small (zlen ms)) by lia.
  change (2 ^ 31) with 2147483648. replace (2147483648 <=? zlen ms) with false by lia. unfold zlen at 1. rewrite Nat2Z.id.
  unfold hbind. match type of H with zskipn ?q _ = _ => rewrite (parseCueEntries_ok ms 0 b q rest Hv ltac:(lia) H) end. cbn [rbind]. eexists. split; reflexivity.
Qed.

Lemma setBuffer_at label id buf pre : forall m ms, (forall w, In w pre -> wn_id w <> id) -> wn_id m = id ->
  setBuffer label id buf (pre ++ m :: ms) = pre ++ (if label then WName id (wn_pos m) buf (wn_comment m) else WName id (wn_pos m) (wn_name m) buf) :: ms.
Proof.
  induction pre as [|w pre IH]; intros m ms Hp Hm.
  - cbn [app setBuffer]. rewrite Hm, Z.eqb_refl. reflexivity.
  - cbn [app setBuffer]. assert (wn_id w <> id) by (apply Hp; left; reflexivity). replace (wn_id w =? id) with false by lia. f_equal. apply IH; [|exact Hm]. intros. apply Hp. right. assumption.
Qed.
Lemma labelEntry_len m : zlen (labelEntry m) = 24 + zlen (zstring (wm_name m)) + zlen (zstring (wm_comment m)).
Proof. unfold labelEntry, le4. rewrite !zlen_app, !sampleBytes_zlen. change (zlen T_labl) with 4. change (zlen T_note) with 4. change (Z.of_nat 4) with 4. lia. Qed.

(** One label or note. *)
Lemma adtl_one fuel endPos s b p (label : bool) id str rest : - 2 ^ 31 <= id < 2 ^ 31 -> 0 <= p -> p < endPos -> zlen (zstring str) + 4 < 2 ^ 32 ->
  zskipn p b = (if label then T_labl else T_note) ++ le4 (4 + zlen (zstring str)) ++ le4 id ++ zstring str ++ rest ->
  adtlLoop (S fuel) endPos s (mkFile b p) =
    adtlLoop fuel endPos (withMarks s (setBuffer label id (zstring str) (wv_marks s))) (mkFile b (p + 12 + zlen (zstring str))) /\
  zskipn (p + 12 + zlen (zstring str)) b = rest.
Proof.
  intros Hid Hp He Hl H. pose proof (zlen_nonneg (zstring str)) as Z1. change (2 ^ 31) with 2147483648 in *. change (2 ^ 32) with 4294967296 in *. cbn [adtlLoop]. rewrite st_tell. cbn [fpos]. replace (p <? endPos) with true by lia. cbn [negb].
  unfold le4 in H. hfield H 4; [destruct label; reflexivity|]. do 1 hstep H. change (8 * Z.of_nat 4) with 32. change (2 ^ 32) with 4294967296. rewrite (Z.mod_small (4 + _)) by lia.
  assert (E1 : (teq (if label then T_labl else T_note) T_labl || teq (if label then T_labl else T_note) T_note) = true) by (destruct label; reflexivity). rewrite E1. clear E1.
  assert (E1 : teq (if label then T_labl else T_note) T_labl = label) by (destruct label; reflexivity). rewrite E1. clear E1.
  hstep H. change (8 * Z.of_nat 4) with 32. change (2 ^ 32) with 4294967296. change (Z.of_nat 4) with 4 in *.
  unfold u32. rewrite uN_small by (change (2 ^ 32) with 4294967296; lia). replace (4 + zlen (zstring str) - 4) with (zlen (zstring str)) by lia.
  hfield H (zlen (zstring str)); [reflexivity|].
  assert (Ev : (4 + zlen (zstring str)) mod 2 = 0) by (rewrite zstring_len; lia). rewrite Ev. change (0 =? 0) with true. cbv iota. rewrite st_ret.
  assert (Es : s32 (id mod 4294967296) = id) by (unfold s32, sN; change (2 ^ 32) with 4294967296; change (2 ^ (32 - 1)) with 2147483648; lia). rewrite Es.
  replace (p + 4 + 4 + 4 + zlen (zstring str)) with (p + 12 + zlen (zstring str)) in * by lia. auto.
Qed.
Lemma adtl_entries ms : forall pre s b p rest fuel, Forall validMark ms -> NoDup (map wm_id ms) -> (forall w m, In w pre -> In m ms -> wn_id w <> wm_id m) ->
  wv_marks s = pre ++ map freshMark ms -> 0 <= p -> zskipn p b = concat (map labelEntry ms) ++ rest -> zlen (concat (map labelEntry ms)) < 2 ^ 32 -> (2 * length ms <= fuel)%nat ->
  adtlLoop fuel (p + zlen (concat (map labelEntry ms))) s (mkFile b p) =
    Ok (Some (withMarks s (pre ++ map foundMark ms), mkFile b (p + zlen (concat (map labelEntry ms))))).
Proof.
  induction ms as [|m ms IH]; intros pre s b p rest fuel Hv Hd Hpre Es Hp H Hl Hf.
  - cbn [map concat] in *. change (zlen []) with 0. rewrite Z.add_0_r. destruct fuel; cbn [adtlLoop]; rewrite st_tell; cbn [fpos]; rewrite Z.ltb_irrefl; cbn [negb]; unfold hret; rewrite <- Es; destruct s; reflexivity.
  - apply Forall_cons_iff in Hv. destruct Hv as [Hm Hv]. cbn [map] in Hd. apply NoDup_cons_iff in Hd. destruct Hd as [Hn Hd]. cbn [map concat] in *. rewrite zlen_app, labelEntry_len in *. rewrite <- app_assoc in H.
    pose proof (zlen_nonneg (zstring (wm_name m))) as Z1. pose proof (zlen_nonneg (zstring (wm_comment m))) as Z2. pose proof (zlen_nonneg (concat (map labelEntry ms))) as Z3.
    destruct Hm as (M1 & M2 & _). destruct fuel as [|[|fuel]]; [cbn [length] in Hf; lia|cbn [length] in Hf; lia|]. change (2 ^ 32) with 4294967296 in *.
    unfold labelEntry in H at 1. rewrite <- !app_assoc in H. set (endPos := p + _).
    destruct (adtl_one (S fuel) endPos s b p true (wm_id m) (wm_name m) _ M1 Hp ltac:(unfold endPos; lia) ltac:(change (2 ^ 32) with 4294967296; lia) H) as [E1 H1].
    rewrite E1. clear E1 H. rewrite Es. assert (Hne : forall w, In w pre -> wn_id w <> wm_id m) by (intros w Hw; apply Hpre; [exact Hw|left; reflexivity]).
    rewrite (setBuffer_at true (wm_id m) _ pre (freshMark m) _ Hne eq_refl). cbn [freshMark wn_pos wn_comment].
    set (s1 := withMarks s _).
    destruct (adtl_one fuel endPos s1 b (p + 12 + zlen (zstring (wm_name m))) false (wm_id m) (wm_comment m) _ M1 ltac:(lia) ltac:(unfold endPos; lia) ltac:(change (2 ^ 32) with 4294967296; lia) H1) as [E1 H2].
    rewrite E1. clear E1 H1. unfold s1 at 2. cbn [wv_marks withMarks].
    rewrite (setBuffer_at false (wm_id m) _ pre _ _ Hne) by reflexivity. cbn [wn_pos wn_name].
    set (s2 := withMarks s1 _).
    pose proof (IH (pre ++ [foundMark m]) s2 b (p + 12 + zlen (zstring (wm_name m)) + 12 + zlen (zstring (wm_comment m))) rest fuel Hv Hd) as G.
    replace (p + 12 + zlen (zstring (wm_name m)) + 12 + zlen (zstring (wm_comment m)) + zlen (concat (map labelEntry ms))) with endPos in G by (unfold endPos; lia).
    rewrite G; clear G.
    + unfold s2, s1, withMarks. cbn. rewrite <- app_assoc. reflexivity.
    + intros w m' Hw Hm'. apply in_app_iff in Hw. destruct Hw as [Hw|[<-|[]]]; [apply Hpre; [exact Hw|right; exact Hm']|].
      cbn [foundMark wn_id]. intros E. apply Hn. rewrite E. apply in_map. exact Hm'.
    + unfold s2. cbn [wv_marks withMarks]. rewrite <- app_assoc. reflexivity.
    + lia.
    + exact H2.
    + lia.
    + cbn [length] in Hf. lia.
Qed.
Lemma adtl_handles {B : Build} host s ms : Forall validMark ms -> NoDup (map wm_id ms) -> wv_marks s = map freshMark ms -> 4 + zlen (concat (map labelEntry ms)) < 2 ^ 32 ->
  handles (waveChunk host) s T_LIST (4 + zlen (concat (map labelEntry ms))) (T_adtl ++ concat (map labelEntry ms)) (withMarks s (map foundMark ms)).
Proof.
  intros Hv Hd Es Hl b p rest Hp H. unfold waveChunk.
  repeat match goal with |- context [teq ?a ?b] => let v := eval vm_compute in (teq a b) in change (teq a b) with v end. cbv iota. cbn [orb].
  unfold parseList. rewrite <- app_assoc in H. hfield H 4; [reflexivity|]. rewrite st_tell, st_length. cbn [fpos].
  repeat match goal with |- context [teq ?a ?b] => let v := eval vm_compute in (teq a b) in change (teq a b) with v end. cbv iota.
  pose proof (zlen_nonneg (concat (map labelEntry ms))) as Z1. replace (4 + zlen (concat (map labelEntry ms)) - 4) with (zlen (concat (map labelEntry ms))) by lia.
  unfold u32. rewrite uN_small by lia.
  assert (Lm : (2 * length ms <= S (Z.to_nat (flength (mkFile b (p + 4)))))%nat).
  { assert (L : zlen (concat (map labelEntry ms)) <= zlen b).
    { pose proof (f_equal zlen H) as E. rewrite zlen_app in E. pose proof (zlen_nonneg rest). rewrite zlen_skipn in E by lia. pose proof (zlen_nonneg b). lia. }
    assert (L2 : 2 * Z.of_nat (length ms) <= zlen (concat (map labelEntry ms))).
    { clear. induction ms as [|m ms IH]; [reflexivity|]. cbn [map concat length]. rewrite zlen_app, labelEntry_len. pose proof (zlen_nonneg (zstring (wm_name m))). pose proof (zlen_nonneg (zstring (wm_comment m))). lia. }
    unfold flength. cbn [fbytes]. lia. }
  rewrite (adtl_entries ms [] s b (p + 4) rest) by (auto; try lia; intros ? ? []). eexists. split; reflexivity.
Qed.

(** *** The format chunk *)
Definition fmtCoefs (fm : format) : list (option Z * option Z) :=
  match f_comp fm with CMSADPCM => map (fun c => (Some (fst c), Some (snd c))) MSADPCM.defaultCoefficients | _ => [] end.
Lemma toU_ok n x : 0 <= x < 2 ^ n -> toUnsigned n x = Ok x.
Proof. intros H. unfold toUnsigned. replace ((0 <=? x) && (x <? 2 ^ n)) with true by lia. reflexivity. Qed.
Lemma ck32_ok x : - 2 ^ 31 <= x < 2 ^ 31 -> ck32 x = Ok x.
Proof. intros H. unfold ck32, inS. change (2 ^ (32 - 1)) with (2 ^ 31). replace ((- 2 ^ 31 <=? x) && (x <? 2 ^ 31)) with true by lia. reflexivity. Qed.

(** Whatever the format, the format chunk starts with the same five fields. *)
Definition parseFormatTail {B : Build} (host : order) (s : waveSt) (tag ch rate : Z) (ba : option Z) : hP waveSt :=
  if tag =? 1 then
    let! bits := readU LittleEndian 2 in
    if (bits =? 0) || (32 <? bits) then hfail else fmtInt s rate bits bits ch
  else if (tag =? 7) || (tag =? 0x101) then hret (withFormat s (mkFmt rate TwosComp 16 ch host CUlaw 1 ch) (wv_coefs s))
  else if (tag =? 6) || (tag =? 0x102) then hret (withFormat s (mkFmt rate TwosComp 16 ch host CAlaw 1 ch) (wv_coefs s))
  else if tag =? 3 then let! bits := readU LittleEndian 2 in fmtFloat s rate bits ch
  else if tag =? 2 then fmtMS host s rate ch ba
  else if tag =? 0x11 then fmtIMA host s rate ch ba
  else if tag =? 0xfffe then fmtExt host s rate ch
  else hfail.
Lemma fmt_front {B : Build} host s b p tag ch rate avg ba rest : 0 <= tag < 2 ^ 16 -> 0 < ch < 2 ^ 16 -> 0 <= rate < 2 ^ 32 -> 0 <= ba < 2 ^ 16 -> 0 <= p ->
  zskipn p b = le2 tag ++ le2 ch ++ le4 rate ++ le4 avg ++ le2 ba ++ rest ->
  waveChunk host s T_fmt 0 (mkFile b p) = waveChunk host s T_fmt 0 (mkFile b p) /\
  parseFormat host s (mkFile b p) = parseFormatTail host s tag ch rate (Some ba) (mkFile b (p + 14)) /\ zskipn (p + 14) b = rest.
Proof.
  intros H1 H2 H3 H4 Hp H. split; [reflexivity|]. change (2 ^ 32) with 4294967296 in *. change (2 ^ 16) with 65536 in *. unfold parseFormat, le2, le4 in *.
  do 5 hstep H. change (8 * Z.of_nat 2) with 16 in *. change (8 * Z.of_nat 4) with 32 in *. change (2 ^ 32) with 4294967296 in *. change (2 ^ 16) with 65536 in *.
  change (Z.of_nat 2) with 2 in *. change (Z.of_nat 4) with 4 in *.
  rewrite (Z.mod_small tag), (Z.mod_small ch), (Z.mod_small rate), (Z.mod_small ba) by lia. replace (ch =? 0) with false by lia.
  replace (p + 2 + 2 + 4 + 4 + 2) with (p + 14) in * by lia. cbn [present]. rewrite st_ret. split; [reflexivity|exact H].
Qed.
Lemma fmtContent_len tag ch rate avg ba bits tail : zlen (le2 tag ++ le2 ch ++ le4 rate ++ le4 avg ++ le2 ba ++ le2 bits ++ tail) = 16 + zlen tail.
Proof. unfold le2, le4. rewrite !zlen_app, !sampleBytes_zlen. change (Z.of_nat 2) with 2. change (Z.of_nat 4) with 4. lia. Qed.

Lemma readCoefs_ok cs : forall b p rest, Forall (fun c => -32768 <= fst c < 32768 /\ -32768 <= snd c < 32768) cs -> 0 <= p ->
  zskipn p b = concat (map (fun c => le2 (fst c) ++ le2 (snd c)) cs) ++ rest ->
  readCoefs (length cs) (mkFile b p) = Ok (Some (map (fun c => (Some (fst c), Some (snd c))) cs, mkFile b (p + 4 * zlen cs))).
Proof.
  induction cs as [|c cs IH]; intros b p rest Hv Hp H.
  - cbn. rewrite Z.add_0_r. reflexivity.
  - apply Forall_cons_iff in Hv. destruct Hv as [[H1 H2] Hv]. cbn [map concat] in *. unfold le2 in H. rewrite <- !app_assoc in H. cbn [length readCoefs].
    do 2 hstep H. change (8 * Z.of_nat 2) with 16. change (2 ^ 16) with 65536. change (Z.of_nat 2) with 2 in *. unfold hbind. rewrite (IH b (p + 2 + 2) rest Hv ltac:(lia) H). cbn [rbind option_map]. unfold hret.
    assert (E : forall x, -32768 <= x < 32768 -> s16 (x mod 65536) = x) by (intros x Hx; unfold s16, sN; change (2 ^ 16) with 65536; change (2 ^ (16 - 1)) with 32768; lia).
    rewrite !E by assumption. rewrite zlen_cons. do 4 f_equal. lia.
Qed.

Lemma coefs_range : Forall (fun c => -32768 <= fst c < 32768 /\ -32768 <= snd c < 32768) MSADPCM.defaultCoefficients.
Proof. apply Forall_forall. intros c Hc. cbn in Hc. repeat destruct Hc as [<-|Hc]; cbn [fst snd]; try lia. Qed.

Lemma wave_fmt host fm : waveFmt host fm -> exists cs content, fmtBytes fm = Ok (T_fmt ++ le4 cs ++ content) /\ zlen content = cs /\ cs mod 2 = 0 /\ 0 <= cs <= 50 /\
  forall (B : Build) s, wv_coefs s = [] -> handles (waveChunk host) s T_fmt cs content (withFormat s fm (fmtCoefs fm)).
Proof.
  change (2 ^ 32) with 4294967296 in *. change (2 ^ 16) with 65536 in *.
  assert (PCM : forall n ch rate sf tag, (1 <= n <= 4 /\ sf = (if n =? 1 then Unsigned else TwosComp) /\ tag = 1 \/ n = 4 /\ sf = Float /\ tag = 3 \/ n = 8 /\ sf = Double /\ tag = 3) -> 0 < ch -> n * ch < 65536 -> 0 <= rate -> rate * (n * ch) < 4294967296 ->
    let fm := mkFmt rate sf (8 * n) ch LittleEndian CNone 1 (n * ch) in
    let content := le2 tag ++ le2 ch ++ le4 rate ++ le4 (rate * (n * ch)) ++ le2 (n * ch) ++ le2 (8 * n) ++ [] in
    fmtBytes fm = Ok (T_fmt ++ le4 16 ++ content) /\ zlen content = 16 /\
    forall (B : Build) s, wv_coefs s = [] -> handles (waveChunk host) s T_fmt 16 content (withFormat s fm [])).
  { clear fm. intros n ch rate sf tag Hn Hc Hba Hr Hav fm content.
    assert (Hn' : 1 <= n <= 8) by lia. assert (Hb0 : 0 < n * ch) by (apply Z.mul_pos_pos; lia). assert (Hc2 : ch <= n * ch) by nia. assert (Hr2 : rate <= rate * (n * ch)) by nia.
    assert (Ess : sampleSize fm = n).
    { unfold sampleSize, fm. cbn [f_sf f_width]. destruct Hn as [(H1 & -> & _)|[(-> & -> & _)|(-> & -> & _)]]; try reflexivity. rewrite Z.quot_div_nonneg by lia. destruct (n =? 1); lia. }
    split; [|split].
    - unfold fmtBytes, fmtFields. cbn [f_comp fm f_chan f_rate]. fold fm. rewrite Ess. rewrite (ck32_ok (n * ch)) by (change (2 ^ 31) with 2147483648; lia). cbn [rbind]. rewrite toU_ok by (change (2 ^ 16) with 65536; lia). cbn [rbind].
      rewrite (toU_ok 32 rate) by (change (2 ^ 32) with 4294967296; lia). cbn [rbind squish]. rewrite Z.quot_1_r. rewrite toU_ok by (change (2 ^ 32) with 4294967296; nia). cbn [rbind fmtTail f_comp].
      unfold content. assert (Et : (if isInt fm then 1 else 3) = tag).
      { unfold isInt, fm. cbn [f_sf]. destruct Hn as [(H1 & -> & ->)|[(-> & -> & ->)|(-> & -> & ->)]]; try reflexivity. destruct (n =? 1); reflexivity. }
      rewrite Et. reflexivity.
    - unfold content. rewrite fmtContent_len. reflexivity.
    - intros B s Hs b p rest Hp H. unfold content in H. rewrite <- !app_assoc in H.
      unfold waveChunk. change (teq T_fmt T_fmt) with true. cbv iota.
      destruct (fmt_front host s b p tag ch rate _ (n * ch) _ ltac:(change (2 ^ 16) with 65536; lia) ltac:(change (2 ^ 16) with 65536; lia) ltac:(change (2 ^ 32) with 4294967296; lia) ltac:(change (2 ^ 16) with 65536; lia) Hp H) as (_ & E & H'). rewrite E. clear E H. rename H' into H.
      unfold le2 in H. cbn [app] in H.
      assert (EP : forall f, fmtPCM s rate sf (8 * n) ch f = Ok (Some (withFormat s fm [], f))).
      { intros f. unfold fmtPCM. rewrite (st_lift _ (n * ch)).
        - unfold hret. rewrite Hs. reflexivity.
        - rewrite bppPCM_ok; try lia; [f_equal; f_equal; lia|]. change (2 ^ 31) with 2147483648. replace ((8 * n + 7) / 8) with n by lia. lia. }
      unfold parseFormatTail. destruct Hn as [(H1 & Esf & ->)|[(-> & Esf & ->)|(-> & Esf & ->)]].
      + change (1 =? 1) with true. cbv iota. hstep H. change (8 * Z.of_nat 2) with 16. change (2 ^ 16) with 65536. rewrite (Z.mod_small (8 * n)) by lia.
        replace ((8 * n =? 0) || (32 <? 8 * n)) with false by lia. unfold fmtInt. replace (if 8 * n <=? 8 then Unsigned else TwosComp) with sf by (rewrite Esf; destruct (n =? 1) eqn:E1, (8 * n <=? 8) eqn:E2; try reflexivity; lia).
        rewrite EP. eexists. split; reflexivity.
      + change (3 =? 1) with false. change ((3 =? 7) || (3 =? 257)) with false. change ((3 =? 6) || (3 =? 258)) with false. change (3 =? 3) with true. cbv iota. hstep H.
        change ((8 * 4) mod 2 ^ (8 * Z.of_nat 2)) with 32. unfold fmtFloat. change (32 =? 64) with false. cbv iota. rewrite <- Esf. change 32 with (8 * 4) at 1. rewrite EP. eexists. split; reflexivity.
      + change (3 =? 1) with false. change ((3 =? 7) || (3 =? 257)) with false. change ((3 =? 6) || (3 =? 258)) with false. change (3 =? 3) with true. cbv iota. hstep H.
        change ((8 * 8) mod 2 ^ (8 * Z.of_nat 2)) with 64. unfold fmtFloat. change (64 =? 64) with true. cbv iota. rewrite <- Esf. change 64 with (8 * 8) at 1. rewrite EP. eexists. split; reflexivity. }
  intros [n ch rate -> Hn Hc Hba Hr Hav|ch rate -> Hc Hba Hr Hav|ch rate -> Hc Hba Hr Hav|c ch rate -> Hcc Hc Hr Hav|ch rate -> Hc Hr Hav|ch rate -> Hc Hr Hav].
  - destruct (PCM n ch rate _ 1 ltac:(left; auto) Hc Hba Hr Hav) as (E1 & E2 & E3). eexists _, _. split; [exact E1|]. split; [exact E2|]. split; [reflexivity|]. split; [lia|]. exact E3.
  - destruct (PCM 4 ch rate Float 3 ltac:(auto) Hc Hba Hr Hav) as (E1 & E2 & E3). eexists _, _. split; [exact E1|]. split; [exact E2|]. split; [reflexivity|]. split; [lia|]. exact E3.
  - destruct (PCM 8 ch rate Double 3 ltac:(auto) Hc Hba Hr Hav) as (E1 & E2 & E3). eexists _, _. split; [exact E1|]. split; [exact E2|]. split; [reflexivity|]. split; [lia|]. exact E3.
  - assert (Hrr : rate <= rate * ch) by nia. exists 18, (le2 (match c with CUlaw => 0x101 | _ => 0x102 end) ++ le2 ch ++ le4 rate ++ le4 (rate * ch) ++ le2 ch ++ le2 8 ++ le2 0).
    split; [|split; [|split; [reflexivity|split; [lia|]]]].
    + unfold fmtBytes, fmtFields, sampleSize. cbn [f_comp f_chan f_rate f_sf f_width].
      replace (match c with CUlaw => Ok (18, 257, ch, 8) | CAlaw => Ok (18, 258, ch, 8) | CIMA => _ | CMSADPCM => _ | CNone => _ | _ => _ end) with (Ok (18, match c with CUlaw => 0x101 | _ => 0x102 end, ch, 8)) by (destruct Hcc as [-> | ->]; reflexivity).
      cbn [rbind]. rewrite toU_ok by (change (2 ^ 32) with 4294967296; lia). cbn [rbind].
      change (Z.quot (16 + 7) 8) with 2. rewrite (ck32_ok (2 * ch)) by (change (2 ^ 31) with 2147483648; lia). cbn [rbind].
      replace (Z.quot (rate * (2 * ch)) (squish c)) with (rate * ch).
      2:{ replace (squish c) with 2 by (destruct Hcc as [-> | ->]; reflexivity). replace (rate * (2 * ch)) with (rate * ch * 2) by ring. rewrite Z.quot_mul by lia. reflexivity. }
      rewrite toU_ok by (change (2 ^ 32) with 4294967296; nia). cbn [rbind]. destruct Hcc as [-> | ->]; reflexivity.
    + rewrite fmtContent_len. reflexivity.
    + intros B s Hs b p rest Hp H. rewrite <- !app_assoc in H.
      unfold waveChunk. change (teq T_fmt T_fmt) with true. cbv iota.
      destruct (fmt_front host s b p (match c with CUlaw => 257 | _ => 258 end) ch rate _ ch _ ltac:(change (2 ^ 16) with 65536; destruct c; lia) ltac:(change (2 ^ 16) with 65536; lia) ltac:(change (2 ^ 32) with 4294967296; lia) ltac:(change (2 ^ 16) with 65536; lia) Hp H) as (_ & E & H'). rewrite E.
      destruct Hcc as [-> | ->]; eexists; (split; [cbn; rewrite Hs; reflexivity|reflexivity]).
  - assert (Hrr : rate <= rate * ch) by nia. change (2 ^ 8) with 256 in *.
    assert (Q : Z.quot (rate * (256 * ch)) 505 = rate * (256 * ch) / 505) by (apply Z.quot_div_nonneg; nia).
    exists 20, (le2 0x11 ++ le2 ch ++ le4 rate ++ le4 (rate * (256 * ch) / 505) ++ le2 (256 * ch) ++ le2 4 ++ le2 2 ++ le2 505).
    split; [|split; [|split; [reflexivity|split; [lia|]]]].
    + unfold fmtBytes, fmtFields, sampleSize. cbn [f_comp f_chan f_rate f_sf f_width f_bpp f_fpp]. cbn [rbind].
      rewrite toU_ok by (change (2 ^ 32) with 4294967296; lia). cbn [rbind].
      change (Z.quot (16 + 7) 8) with 2. rewrite (ck32_ok (2 * ch)) by (change (2 ^ 31) with 2147483648; lia). cbn [rbind squish].
      rewrite (toU_ok 32 (Z.quot (rate * (2 * ch)) 4)) by (change (2 ^ 32) with 4294967296; rewrite Z.quot_div_nonneg by nia; nia). cbn [rbind].
      rewrite Q. rewrite toU_ok by (change (2 ^ 32) with 4294967296; nia). cbn [rbind]. reflexivity.
    + rewrite fmtContent_len. reflexivity.
    + intros B s Hs b p rest Hp H. rewrite <- !app_assoc in H.
      unfold waveChunk. change (teq T_fmt T_fmt) with true. cbv iota.
      destruct (fmt_front host s b p 17 ch rate _ (256 * ch) _ ltac:(change (2 ^ 16) with 65536; lia) ltac:(change (2 ^ 16) with 65536; lia) ltac:(change (2 ^ 32) with 4294967296; lia) ltac:(change (2 ^ 16) with 65536; lia) Hp H) as (_ & E & H'). rewrite E. clear E H. rename H' into H.
      unfold parseFormatTail. change (17 =? 1) with false. change ((17 =? 7) || (17 =? 257)) with false. change ((17 =? 6) || (17 =? 258)) with false. change (17 =? 3) with false. change (17 =? 2) with false. change (17 =? 17) with true. cbv iota.
      unfold le2 in H. unfold fmtIMA. do 3 hstep H. change (505 mod 2 ^ (8 * Z.of_nat 2)) with 505. change ((505 + 14) / 8 * 4) with 256. rewrite (st_lift _ (256 * ch)) by (apply ck32_ok; change (2 ^ 31) with 2147483648; lia).
      cbn [present]. rewrite st_ret. unfold hret. rewrite Hs. eexists. split; reflexivity.
  - assert (Hrr : rate <= rate * ch) by nia.
    assert (Q : Z.quot (rate * (256 * ch)) 500 = rate * (256 * ch) / 500) by (apply Z.quot_div_nonneg; nia).
    exists 50, (le2 2 ++ le2 ch ++ le4 rate ++ le4 (rate * (256 * ch) / 500) ++ le2 (256 * ch) ++ le2 4 ++ le2 32 ++ le2 500 ++ le2 7 ++ concat (map (fun c => le2 (fst c) ++ le2 (snd c)) MSADPCM.defaultCoefficients)).
    split; [|split; [|split; [reflexivity|split; [lia|]]]].
    + unfold fmtBytes, fmtFields, sampleSize. cbn [f_comp f_chan f_rate f_sf f_width f_bpp f_fpp]. cbn [rbind].
      rewrite toU_ok by (change (2 ^ 32) with 4294967296; lia). cbn [rbind].
      change (Z.quot (16 + 7) 8) with 2. rewrite (ck32_ok (2 * ch)) by (change (2 ^ 31) with 2147483648; lia). cbn [rbind squish].
      rewrite (toU_ok 32 (Z.quot (rate * (2 * ch)) 4)) by (change (2 ^ 32) with 4294967296; rewrite Z.quot_div_nonneg by nia; nia). cbn [rbind].
      rewrite Q. rewrite toU_ok by (change (2 ^ 32) with 4294967296; nia). cbn [rbind fmtTail f_comp f_fpp]. change (2 + 2 + 7 * 4) with 32. reflexivity.
    + rewrite fmtContent_len. reflexivity.
    + intros B s Hs b p rest Hp H. rewrite <- !app_assoc in H.
      unfold waveChunk. change (teq T_fmt T_fmt) with true. cbv iota.
      destruct (fmt_front host s b p 2 ch rate _ (256 * ch) _ ltac:(change (2 ^ 16) with 65536; lia) ltac:(change (2 ^ 16) with 65536; lia) ltac:(change (2 ^ 32) with 4294967296; lia) ltac:(change (2 ^ 16) with 65536; lia) Hp H) as (_ & E & H'). rewrite E. clear E H. rename H' into H.
      unfold parseFormatTail. change (2 =? 1) with false. change ((2 =? 7) || (2 =? 257)) with false. change ((2 =? 6) || (2 =? 258)) with false. change (2 =? 3) with false. change (2 =? 2) with true. cbv iota.
      unfold le2 in H. unfold fmtMS. do 4 hstep H. change (500 mod 2 ^ (8 * Z.of_nat 2)) with 500. change (7 mod 2 ^ (8 * Z.of_nat 2)) with 7. rewrite st_assert by reflexivity. change (256 <? 7) with false. cbv iota.
      change (Z.to_nat 7) with 7%nat. unfold hbind. change 7%nat with (length MSADPCM.defaultCoefficients).
      match type of H with zskipn ?q _ = _ => rewrite (readCoefs_ok MSADPCM.defaultCoefficients b q rest coefs_range ltac:(lia) H) end. cbn [rbind present]. unfold hret. cbn [rbind]. eexists. split; reflexivity.
Qed.

(** *** The chunks before the audio data: tag, size, contents *)
Definition cINFO (ms : list (Z * list Z)) : list (list Z * Z * list Z) :=
  match ms with [] => [] | _ => [(T_LIST, 4 + zlen (concat (map infoEntry ms)), T_INFO ++ concat (map infoEntry ms))] end.
Definition cCUE (ms : list wmarker) : list (list Z * Z * list Z) :=
  match ms with [] => [] | _ => [(T_cue, 4 + zlen ms * 24, le4 (zlen ms) ++ cueEntries 0 ms); (T_LIST, 4 + zlen (concat (map labelEntry ms)), T_adtl ++ concat (map labelEntry ms))] end.
Definition cFACT (f : format) (total : Z) : list (list Z * Z * list Z) := if hasFact f then [(T_fact, 4, le4 total)] else [].
Definition waveChunks (cs : Z) (content : list Z) (f : format) (x : wextra) (total : Z) : list (list Z * Z * list Z) :=
  cINFO (wx_misc x) ++ cCUE (wx_marks x) ++ [(T_fmt, cs, content)] ++ cFACT f total.
Lemma waveBody_chunks cs content fm x total dsize :
  waveBody (T_fmt ++ le4 cs ++ content) fm x total dsize = chunksBytes LittleEndian (waveChunks cs content fm x total) ++ T_data ++ le4 dsize.
Proof.
  unfold waveBody, waveChunks. rewrite !chunksBytes_app, <- !app_assoc.
  assert (E1 : infoBytes (wx_misc x) = chunksBytes LittleEndian (cINFO (wx_misc x))).
  { unfold infoBytes, cINFO, chunksBytes. destruct (wx_misc x); [reflexivity|]. cbv zeta. set (m := p :: l). clearbody m. cbn [map concat]. rewrite app_nil_r. reflexivity. }
  assert (E2 : cueBytes (wx_marks x) = chunksBytes LittleEndian (cCUE (wx_marks x))).
  { unfold cueBytes, cCUE, chunksBytes. destruct (wx_marks x); [reflexivity|]. set (m := w :: l). clearbody m. cbn [map concat]. rewrite <- !app_assoc, app_nil_r. reflexivity. }
  assert (E3 : factBytes fm total = chunksBytes LittleEndian (cFACT fm total)).
  { unfold factBytes, cFACT, chunksBytes. destruct (hasFact fm); [|reflexivity]. cbn [map concat]. rewrite app_nil_r. reflexivity. }
  assert (E4 : chunksBytes LittleEndian [(T_fmt, cs, content)] = T_fmt ++ le4 cs ++ content) by (unfold chunksBytes; cbn [map concat]; rewrite app_nil_r; reflexivity).
  rewrite E1, E2, E3, E4, <- !app_assoc. reflexivity.
Qed.

Lemma infos_even ms : Forall validMisc ms -> zlen (concat (map infoEntry ms)) mod 2 = 0.
Proof. induction 1 as [|m ms Hm Hv IH]; [reflexivity|]. cbn [map concat]. rewrite zlen_app, infoEntry_len by exact Hm. lia. Qed.
Lemma labels_even ms : zlen (concat (map labelEntry ms)) mod 2 = 0.
Proof. induction ms as [|m ms IH]; [reflexivity|]. cbn [map concat]. rewrite zlen_app, labelEntry_len, !zstring_len. lia. Qed.
Definition foundSt (fm : format) (x : wextra) (total : Z) : waveSt :=
  WaveSt (Some fm) (fmtCoefs fm) false 0 0 (if hasFact fm then Some total else None) (map foundMark (wx_marks x)) (miscFound (wx_misc x)).
Lemma fact_handles {B : Build} host s total n : 0 <= total < 2 ^ 32 ->
  handles (waveChunk host) s T_fact n (le4 total) (WaveSt (wv_fmt s) (wv_coefs s) (wv_data s) (wv_first s) (wv_dsize s) (Some total) (wv_marks s) (wv_misc s)).
Proof.
  intros Ht b p rest Hp H. unfold waveChunk. repeat match goal with |- context [teq ?a ?b] => let v := eval vm_compute in (teq a b) in change (teq a b) with v end. cbv iota.
  unfold parseFact, le4 in *. hstep H. change (8 * Z.of_nat 4) with 32. rewrite Z.mod_small by exact Ht. eexists. split; reflexivity.
Qed.
Lemma wave_chunks_handled {B : Build} host cs content fm x total :
  zlen content = cs -> cs mod 2 = 0 -> 0 <= cs -> (forall s, wv_coefs s = [] -> handles (waveChunk host) s T_fmt cs content (withFormat s fm (fmtCoefs fm))) ->
  validExtra x -> zlen (waveBody (T_fmt ++ le4 cs ++ content) fm x total 0) < 2 ^ 32 -> 0 <= total < 2 ^ 32 ->
  handlesAll (waveChunk host) waveSt0 (waveChunks cs content fm x total) (foundSt fm x total).
Proof.
  intros Lc Ec H0 Hf (V1 & V2 & V3) Hl Ht. unfold waveBody in Hl. rewrite !zlen_app in Hl. change (2 ^ 32) with 4294967296 in *. unfold waveChunks.
  pose proof (zlen_nonneg content). pose proof (zlen_nonneg (factBytes fm total)). pose proof (zlen_nonneg (infoBytes (wx_misc x))). pose proof (zlen_nonneg (cueBytes (wx_marks x))).
  change (zlen T_fmt) with 4 in *. change (zlen T_data) with 4 in *. change (zlen (le4 cs)) with 4 in *. change (zlen (le4 0)) with 4 in *.
  set (s1 := withMisc waveSt0 (miscFound (wx_misc x))). set (s2 := withMarks s1 (map foundMark (wx_marks x))).
  apply handlesAll_app with (s' := s1).
  { unfold cINFO, s1. destruct (wx_misc x) as [|m ms] eqn:E; [constructor|]. rewrite <- E in *.
    assert (L : 8 + (4 + zlen (concat (map infoEntry (wx_misc x)))) <= zlen (infoBytes (wx_misc x))).
    { unfold infoBytes. destruct (wx_misc x); [discriminate E|]. cbv zeta. rewrite !zlen_app. change (zlen T_LIST) with 4. change (zlen T_INFO) with 4. change (zlen (le4 _)) with 4. lia. }
    pose proof (zlen_nonneg (concat (map infoEntry (wx_misc x)))). pose proof (infos_even _ V1).
    econstructor; [reflexivity|lia|rewrite zlen_app; change (zlen T_INFO) with 4; lia| |constructor].
    apply (info_handles host waveSt0 (wx_misc x) V1). change (2 ^ 32) with 4294967296. lia. }
  apply handlesAll_app with (s' := s2).
  { unfold cCUE, s2. destruct (wx_marks x) as [|m ms] eqn:E; [constructor|]. rewrite <- E in *.
    assert (L : 8 + (4 + zlen (wx_marks x) * 24) + 8 + 4 + zlen (concat (map labelEntry (wx_marks x))) <= zlen (cueBytes (wx_marks x))).
    { unfold cueBytes. destruct (wx_marks x) as [|m' ms']; [discriminate E|]. rewrite !zlen_app, cueEntries_len. change (zlen T_LIST) with 4. change (zlen T_adtl) with 4. change (zlen T_cue) with 4. change (zlen (le4 _)) with 4. lia. }
    pose proof (zlen_nonneg (concat (map labelEntry (wx_marks x)))). pose proof (zlen_nonneg (wx_marks x)). pose proof (labels_even (wx_marks x)).
    econstructor; [reflexivity|lia|rewrite zlen_app, cueEntries_len; change (zlen (le4 _)) with 4; lia|apply (cue_handles host s1 (wx_marks x) _ V2); change (2 ^ 31) with 2147483648; lia|].
    econstructor; [reflexivity|lia|rewrite zlen_app; change (zlen T_adtl) with 4; lia|apply adtl_handles; [exact V2|exact V3|reflexivity|change (2 ^ 32) with 4294967296; lia]|].
    constructor. }
  apply handlesAll_app with (s' := withFormat s2 fm (fmtCoefs fm)).
  { econstructor; [reflexivity|exact H0|lia|apply Hf; reflexivity|constructor]. }
  unfold cFACT, foundSt, s2, s1. destruct (hasFact fm); [|constructor].
  econstructor; [reflexivity|lia|reflexivity|apply fact_handles; exact Ht|constructor].
Qed.

(** [z] is the length of the file when the header was written. *)
Lemma wave_read_header {B : Build} host cs content fm x total dsize z b rest fuel :
  zlen content = cs -> cs mod 2 = 0 -> 0 <= cs -> (forall s, wv_coefs s = [] -> handles (waveChunk host) s T_fmt cs content (withFormat s fm (fmtCoefs fm))) -> validExtra x ->
  let body := waveBody (T_fmt ++ le4 cs ++ content) fm x total dsize in
  b = T_RIFF ++ le4 (z - 8) ++ T_WAVE ++ body ++ rest ->
  z = 12 + zlen body + dsize -> z <= 2 ^ 32 - 24 -> 0 <= dsize -> 0 <= total < 2 ^ 32 -> (6 <= fuel)%nat ->
  exists f', waveRead host fuel (mkFile b 0) =
    Ok (Some (WaveSt (Some fm) (fmtCoefs fm) true (12 + zlen body) dsize (if hasFact fm then Some total else None) (map foundMark (wx_marks x)) (miscFound (wx_misc x)), f')).
Proof.
  intros Lc Ec H0 Hf Hx body Eb Lb Hl Hd Ht Hfu. unfold body in *. clear body.
  assert (HA : handlesAll (waveChunk host) waveSt0 (waveChunks cs content fm x total) (foundSt fm x total)).
  { apply wave_chunks_handled; auto. rewrite waveBody_chunks in *. rewrite !zlen_app in *. change (zlen (le4 _)) with 4 in *. change (2 ^ 32) with 4294967296 in *. lia. }
  rewrite waveBody_chunks in *. set (l := waveChunks cs content fm x total) in *.
  rewrite !zlen_app in *. change (zlen T_data) with 4 in *. change (zlen (le4 dsize)) with 4 in *. change (4 + 4) with 8 in *.
  pose proof (zlen_nonneg (chunksBytes LittleEndian l)) as Zc. change (2 ^ 32) with 4294967296 in *.
  assert (H : zskipn 0 b = T_RIFF ++ le4 (z - 8) ++ T_WAVE ++ chunksBytes LittleEndian l ++ T_data ++ le4 dsize ++ rest).
  { rewrite zskipn_0 by lia. rewrite Eb. rewrite <- !app_assoc. reflexivity. }
  clear Eb. unfold waveRead. rewrite st_seek. cbn [fbytes]. hfield H 4; [reflexivity|]. change (0 + 4) with 4 in *. unfold le4 in H. hstep H. change (4 + Z.of_nat 4) with 8 in *.
  hfield H 4; [reflexivity|]. change (8 + 4) with (4 + 8) in *. rewrite !st_assert by reflexivity.
  change (8 * Z.of_nat 4) with 32. change (2 ^ 32) with 4294967296. rewrite (Z.mod_small (z - 8)) by lia. cbn [present]. rewrite st_ret.
  assert (Lfu : exists k, fuel = (length l + S k)%nat).
  { exists (fuel - length l - 1)%nat. assert ((length l <= 5)%nat); [|lia]. unfold l, waveChunks, cINFO, cCUE, cFACT.
    rewrite !app_length. clear. destruct (wx_misc x), (wx_marks x), (hasFact fm); cbn [length]; lia. }
  destruct Lfu as [k ->].
  assert (W : forall v, 0 <= v < 2 ^ 32 -> u32 v = v) by (intros v Hv; unfold u32; apply uN_small; exact Hv).
  destruct (chunkLoop_chunks LittleEndian u32 (waveChunk host) (z - 8) b _ W l _ _ (S k) 4 HA ltac:(lia) eq_refl ltac:(lia) ltac:(change (2 ^ 32) with 4294967296; lia) H) as (E1 & E2 & E3).
  rewrite E1. clear E1 HA H. set (i := 4 + zlen (chunksBytes LittleEndian l)) in *. 
  eapply chunkLoop_last with (b := b) (tag := T_data) (n := dsize) (f' := mkFile b (i + 16)); try eassumption; try reflexivity; try lia; try (change (2 ^ 32) with 4294967296; lia).
  unfold waveChunk. repeat match goal with |- context [teq ?a ?b] => let v := eval vm_compute in (teq a b) in change (teq a b) with v end.
  cbv iota. cbn [wv_fmt foundSt]. unfold parseData. rewrite st_tell. cbn [fpos]. unfold hret, foundSt. cbn [wv_fmt wv_coefs wv_fact wv_marks wv_misc].
  replace (i + 16) with (12 + (zlen (chunksBytes LittleEndian l) + 8)) at 1 by (unfold i; lia). reflexivity.
Qed.

(** *** The front of the file while it is written *)
Lemma ow_at pre mid d post p b : b = pre ++ mid ++ post -> zlen pre = p -> zlen mid = zlen d -> overwrite b p d = pre ++ d ++ post.
Proof. intros -> <- H. apply ow_mid. exact H. Qed.
Lemma factBytes_len fm t1 t2 : zlen (factBytes fm t1) = zlen (factBytes fm t2).
Proof. unfold factBytes. destruct (hasFact fm); reflexivity. Qed.
Lemma infos_len ms : forall ns, Forall validMisc ms -> Forall validMisc ns -> map (fun m : Z * list Z => zlen (snd m)) ms = map (fun m => zlen (snd m)) ns ->
  zlen (concat (map infoEntry ms)) = zlen (concat (map infoEntry ns)).
Proof.
  induction ms as [|m ms IH]; intros [|n ns] V1 V2 H; try discriminate H; [reflexivity|]. cbn [map] in H. injection H as H1 H2.
  apply Forall_cons_iff in V1, V2. destruct V1 as [V1 V1'], V2 as [V2 V2']. cbn [map concat]. rewrite !zlen_app, !infoEntry_len, H1, (IH ns V1' V2' H2) by assumption. reflexivity.
Qed.
Lemma labels_len ms : forall ns, map (fun m => (zlen (wm_name m), zlen (wm_comment m))) ms = map (fun m => (zlen (wm_name m), zlen (wm_comment m))) ns ->
  zlen (concat (map labelEntry ms)) = zlen (concat (map labelEntry ns)) /\ zlen ms = zlen ns.
Proof.
  induction ms as [|m ms IH]; intros [|n ns] H; try discriminate H; [auto|]. cbn [map] in H. injection H as H1 H2 H3.
  destruct (IH ns H3) as [E1 E2]. cbn [map concat]. rewrite !zlen_app, !labelEntry_len, !zstring_len, !zlen_cons, E1, E2, H1, H2. auto.
Qed.
Lemma extras_len x y : validExtra x -> validExtra y -> sameLayout x y ->
  zlen (infoBytes (wx_misc x)) = zlen (infoBytes (wx_misc y)) /\ zlen (cueBytes (wx_marks x)) = zlen (cueBytes (wx_marks y)).
Proof.
  intros (V1 & _) (V2 & _) (L1 & L2). split.
  - pose proof (infos_len _ _ V1 V2 L1) as E. unfold infoBytes. destruct (wx_misc x) as [|m ms], (wx_misc y) as [|n ns]; try discriminate L1; [reflexivity|]. cbv zeta. rewrite !zlen_app, E. reflexivity.
  - destruct (labels_len _ _ L2) as [E1 E2]. unfold cueBytes. destruct (wx_marks x) as [|m ms], (wx_marks y) as [|n ns]; try discriminate L2; [reflexivity|]. rewrite !zlen_app, !cueEntries_len, E1, E2. reflexivity.
Qed.
Lemma body_len fb fm x y t1 t2 d1 d2 : validExtra x -> validExtra y -> sameLayout x y -> zlen (waveBody fb fm x t1 d1) = zlen (waveBody fb fm y t2 d2).
Proof. intros Vx Vy L. destruct (extras_len x y Vx Vy L) as [E1 E2]. unfold waveBody. rewrite !zlen_app, E1, E2, (factBytes_len fm t1 t2). reflexivity. Qed.

Definition waveFront (fb : list Z) (fm : format) (x0 : wextra) (limit : Z) (b : list Z) : Prop :=
  exists sz inf cue fact ds rest, zlen sz = 4 /\ zlen inf = zlen (infoBytes (wx_misc x0)) /\ zlen cue = zlen (cueBytes (wx_marks x0)) /\ zlen fact = zlen (factBytes fm 0) /\ zlen ds = 4 /\
    b = T_RIFF ++ sz ++ T_WAVE ++ inf ++ cue ++ fb ++ fact ++ T_data ++ ds ++ rest /\ zlen b <= limit.

Lemma waveUpdate_front fb fm x0 x f t sz inf cue fact ds rest : validExtra x0 -> validExtra x -> sameLayout x0 x ->
  zlen sz = 4 -> zlen inf = zlen (infoBytes (wx_misc x0)) -> zlen cue = zlen (cueBytes (wx_marks x0)) -> zlen fact = zlen (factBytes fm 0) -> zlen ds = 4 ->
  fbytes f = T_RIFF ++ sz ++ T_WAVE ++ inf ++ cue ++ fb ++ fact ++ T_data ++ ds ++ rest ->
  fbytes (waveUpdate fb fm x0 x f t) = T_RIFF ++ le4 (flength f - 8) ++ T_WAVE ++ waveBody fb fm x (w_totalf t) (w_dsize t) ++ rest.
Proof.
  intros V0 Vx L Ls Li Lc Lf Ld E. destruct (extras_len x0 x V0 Vx L) as [EL1 EL2]. unfold waveUpdate.
  set (f1 := if hasFact fm then _ else f). set (nf := factBytes fm (w_totalf t)).
  assert (Lnf : zlen fact = zlen nf) by (unfold nf; rewrite Lf; apply factBytes_len).
  assert (E1 : fbytes f1 = T_RIFF ++ sz ++ T_WAVE ++ inf ++ cue ++ fb ++ nf ++ T_data ++ ds ++ rest).
  { unfold f1. destruct (hasFact fm) eqn:Hh.
    - unfold fwrite, fseek. cbn [fbytes fpos]. rewrite (ow_at (T_RIFF ++ sz ++ T_WAVE ++ inf ++ cue ++ fb) fact _ (T_data ++ ds ++ rest)); [fold nf; rewrite <- !app_assoc; reflexivity|rewrite E, <- !app_assoc; reflexivity| |exact Lnf].
      unfold offFact, offMark. rewrite !zlen_app, Ls, Li, Lc. change (zlen T_RIFF) with 4. change (zlen T_WAVE) with 4. lia.
    - assert (Hn : nf = [] /\ fact = []).
      { unfold nf, factBytes in *. rewrite Hh in *. split; [reflexivity|]. destruct fact; [reflexivity|]. rewrite zlen_cons, zlen_nil in Lf. pose proof (zlen_nonneg fact). lia. }
      destruct Hn as [-> ->]. exact E. }
  clearbody f1. cbv zeta. set (f2 := fwrite (fseek f1 _) (le4 (w_dsize t))).
  assert (E2 : fbytes f2 = T_RIFF ++ sz ++ T_WAVE ++ inf ++ cue ++ fb ++ nf ++ T_data ++ le4 (w_dsize t) ++ rest).
  { unfold f2, fwrite, fseek. cbn [fbytes fpos]. rewrite (ow_at (T_RIFF ++ sz ++ T_WAVE ++ inf ++ cue ++ fb ++ nf ++ T_data) ds _ rest); [rewrite <- !app_assoc; reflexivity|rewrite E1, <- !app_assoc; reflexivity| |exact Ld].
    unfold offSize, offFact, offMark. rewrite !zlen_app, Ls, Li, Lc, <- Lnf, Lf. change (zlen T_RIFF) with 4. change (zlen T_WAVE) with 4. change (zlen T_data) with 4. lia. }
  assert (EF : flength f2 = flength f) by (unfold flength; rewrite E, E2, !zlen_app, Lnf, Ld; change (zlen (le4 _)) with 4; lia).
  clearbody f2. set (f3 := fwrite (fseek f2 4) _).
  assert (E3 : fbytes f3 = T_RIFF ++ le4 (flength f - 8) ++ T_WAVE ++ inf ++ cue ++ fb ++ nf ++ T_data ++ le4 (w_dsize t) ++ rest).
  { unfold f3, fwrite, fseek. cbn [fbytes fpos]. rewrite EF. apply (ow_at T_RIFF sz _ _ 4 _ E2); [reflexivity|exact Ls]. }
  clearbody f3. set (f4 := fwrite (fseek f3 12) _).
  assert (E4 : fbytes f4 = T_RIFF ++ le4 (flength f - 8) ++ T_WAVE ++ infoBytes (wx_misc x) ++ cue ++ fb ++ nf ++ T_data ++ le4 (w_dsize t) ++ rest).
  { unfold f4, fwrite, fseek. cbn [fbytes fpos]. rewrite (ow_at (T_RIFF ++ le4 (flength f - 8) ++ T_WAVE) inf _ (cue ++ fb ++ nf ++ T_data ++ le4 (w_dsize t) ++ rest)); [rewrite <- !app_assoc; reflexivity|rewrite E3, <- !app_assoc; reflexivity|reflexivity|lia]. }
  clearbody f4. unfold fwrite, fseek. cbn [fbytes fpos].
  rewrite (ow_at (T_RIFF ++ le4 (flength f - 8) ++ T_WAVE ++ infoBytes (wx_misc x)) cue _ (fb ++ nf ++ T_data ++ le4 (w_dsize t) ++ rest)).
  - unfold waveBody. fold nf. rewrite <- !app_assoc. reflexivity.
  - rewrite E4, <- !app_assoc. reflexivity.
  - unfold offMark. rewrite !zlen_app. change (zlen T_RIFF) with 4. change (zlen T_WAVE) with 4. change (zlen (le4 _)) with 4. lia.
  - lia.
Qed.

Lemma wave_front fb fm x0 (xs : wtrack -> wextra) limit bpf : validExtra x0 -> (forall t, validExtra (xs t) /\ sameLayout x0 (xs t)) -> waveFirst fb fm x0 <= limit ->
  frontOK (waveFront fb fm x0 limit) (waveInit fb fm x0) (waveFirst fb fm x0) limit bpf (fun f t => waveUpdate fb fm x0 (xs t) f t).
Proof.
  intros V0 Vx Hl. split.
  - intros b p d Hp Hd (sz & inf & cue & fact & ds & rest & Ls & Li & Lc & Lf & Ld & E & Lb).
    assert (L : zlen (T_RIFF ++ sz ++ T_WAVE ++ inf ++ cue ++ fb ++ fact ++ T_data ++ ds) = waveFirst fb fm x0).
    { unfold waveFirst, waveBody. rewrite !zlen_app, Ls, Li, Lc, Lf, Ld. change (zlen T_RIFF) with 4. change (zlen T_WAVE) with 4. change (zlen T_data) with 4. change (zlen (le4 _)) with 4. lia. }
    exists sz, inf, cue, fact, ds, (overwrite rest (p - waveFirst fb fm x0) d). do 5 (split; [assumption|]). split.
    + rewrite E. replace (T_RIFF ++ sz ++ T_WAVE ++ inf ++ cue ++ fb ++ fact ++ T_data ++ ds ++ rest) with ((T_RIFF ++ sz ++ T_WAVE ++ inf ++ cue ++ fb ++ fact ++ T_data ++ ds) ++ rest) by (rewrite <- !app_assoc; reflexivity).
      rewrite ow_past by lia. rewrite L, <- !app_assoc. reflexivity.
    + destruct d as [|y d]; [exact Lb|]. unfold waveFirst in *. pose proof (zlen_nonneg (waveBody fb fm x0 0 0)). rewrite ow_len by (try discriminate; lia). lia.
  - intros f t _ _ _ _ (sz & inf & cue & fact & ds & rest & Ls & Li & Lc & Lf & Ld & E & Lb). destruct (Vx t) as [Vt Lt]. destruct (extras_len x0 (xs t) V0 Vt Lt) as [EL1 EL2].
    exists (le4 (flength f - 8)), (infoBytes (wx_misc (xs t))), (cueBytes (wx_marks (xs t))), (factBytes fm (w_totalf t)), (le4 (w_dsize t)), rest.
    rewrite (waveUpdate_front fb fm x0 (xs t) f t sz inf cue fact ds rest V0 Vt Lt Ls Li Lc Lf Ld E). split; [reflexivity|]. split; [lia|]. split; [lia|]. split; [apply factBytes_len|]. split; [reflexivity|].
    split; [unfold waveBody; rewrite <- !app_assoc; reflexivity|]. rewrite E in Lb. unfold waveBody. rewrite !zlen_app in *. rewrite (factBytes_len fm (w_totalf t) 0). change (zlen (le4 _)) with 4. lia.
  - exists (le4 0), (infoBytes (wx_misc x0)), (cueBytes (wx_marks x0)), (factBytes fm 0), (le4 0), []. do 3 (split; [reflexivity|]). split; [reflexivity|]. split; [reflexivity|]. split; [unfold waveInit, waveBody; now rewrite app_nil_r|].
    unfold waveInit, waveFirst in *. rewrite !zlen_app. change (zlen T_RIFF) with 4. change (zlen T_WAVE) with 4. change (zlen (le4 0)) with 4. lia.
Qed.

Lemma wave_keeps fb fm x0 (xs : wtrack -> wextra) : validExtra x0 -> (forall t, validExtra (xs t) /\ sameLayout x0 (xs t)) ->
  updKeeps (fun f t => waveUpdate fb fm x0 (xs t) f t) (waveFirst fb fm x0).
Proof.
  intros V0 Vx f t Ht. destruct (Vx t) as [Vt Lt]. destruct (extras_len x0 (xs t) V0 Vt Lt) as [EL1 EL2]. set (a := waveFirst fb fm x0) in *.
  assert (A : a = offSize fb fm x0 + 4).
  { unfold a, waveFirst, waveBody, offSize, offFact, offMark. rewrite !zlen_app. change (zlen T_data) with 4. change (zlen (le4 0)) with 4. lia. }
  pose proof (zlen_nonneg (infoBytes (wx_misc x0))) as Z1. pose proof (zlen_nonneg (cueBytes (wx_marks x0))) as Z2. pose proof (zlen_nonneg fb) as Z3. pose proof (zlen_nonneg (factBytes fm 0)) as Z4.
  destruct (Z.lt_ge_cases (w_after t - a) 0) as [Hn|Hn]; [unfold region; rewrite !zfirstn_0 by lia; reflexivity|].
  assert (K : forall g p d, 0 <= p -> p + zlen d <= a -> region (fbytes (fwrite (fseek g p) d)) a (w_after t - a) = region (fbytes g) a (w_after t - a)).
  { intros g p d Hp Hd. unfold fwrite, fseek. cbn [fbytes fpos]. apply ow_region_after'; lia. }
  unfold waveUpdate. unfold offSize, offFact, offMark in *. rewrite K by lia. rewrite K by lia. rewrite K by (try (change (zlen (le4 _)) with 4); lia). rewrite K by (try (change (zlen (le4 _)) with 4); lia).
  destruct (hasFact fm); [|reflexivity]. rewrite K by (try rewrite (factBytes_len fm (w_totalf t) 0); lia). reflexivity.
Qed.

(** ** C35: the round trip *)
(** The file re-opens as WAVE: format, position and size of the data, frame count; markers with ids, positions, names and
    comments; types, sizes and contents of miscellaneous data; the coefficients of MS ADPCM; and the frames.  [fuel] bounds
    the number of chunks looked at. *)
Definition waveReopens {F W} (B : Build) (host : order) (bytes : list Z) (r : codec F) (back : F -> W) (fm : format) (x : wextra) (first size total : Z) (frames : list W) : Prop :=
  (forall fuel, (6 <= fuel)%nat -> exists s f', waveOpen host fuel (mkFile bytes 0) = Ok (Some ((mkParsed fm first size total, s), f')) /\
     map (fun w => (wn_id w, wn_pos w, markText (wn_name w), markText (wn_comment w))) (wv_marks s) = map (fun m => (wm_id m, wm_pos m, Ok (wm_name m), Ok (wm_comment m))) (wx_marks x) /\
     wv_misc s = map (fun m => (fst m, zlen (snd m), snd m)) (wx_misc x) /\ wv_coefs s = fmtCoefs fm) /\
  waveRecognize (mkFile bytes 0) = true /\
  readsAs B r back bytes first total frames.

Lemma wave_conclude_front {F W} (B : Build) (host : order) fm fb x0 (xs : wtrack -> wextra) (r : codec F) (back : F -> W) size total frames f0 (st_file : file) t (X : list Z) :
  waveFmt host fm -> fmtBytes fm = Ok fb -> validExtra x0 -> (forall t, validExtra (xs t) /\ sameLayout x0 (xs t)) ->
  let first := waveFirst fb fm x0 in
  0 <= size -> 0 <= total < 2 ^ 32 -> first + size <= 2 ^ 32 - 24 ->
  (hasFact fm = false -> size = f_bpp fm * total) ->
  st_file = waveUpdate fb fm x0 (xs t) f0 t -> w_totalf t = total -> w_dsize t = size ->
  waveFront fb fm x0 (first + size) (fbytes f0) ->
  first + size <= zlen (fbytes st_file) ->
  zfirstn (first + size) X = zfirstn (first + size) (fbytes st_file) -> first + size <= zlen X ->
  readsAs B r back X first total frames ->
  waveReopens B host X r back fm (xs t) first size total frames.
Proof.
  intros Hf Efb. destruct (wave_fmt host fm Hf) as (cs & content & E1 & E2 & E3 & E4 & E5). assert (D : fb = T_fmt ++ le4 cs ++ content) by congruence. subst fb. set (fb := T_fmt ++ le4 cs ++ content).
  intros V0 Vx first Hb Ht Hs Hfa -> T1 T2 (sz & inf & cue & fact & ds & rest & Ls & Li & Lc & Lf & Ld & E & Lb) Fit EX LX RD. destruct (Vx t) as [Vt Lt].
  pose proof (body_len fb fm x0 (xs t) 0 (w_totalf t) 0 (w_dsize t) V0 Vt Lt) as EL.
  pose proof (waveUpdate_front fb fm x0 (xs t) f0 t sz inf cue fact ds rest V0 Vt Lt Ls Li Lc Lf Ld E) as Eb.
  assert (Lfl : flength f0 = zlen (fbytes (waveUpdate fb fm x0 (xs t) f0 t))).
  { clearbody fb. rewrite Eb. unfold flength. rewrite E. unfold waveBody. destruct (extras_len x0 (xs t) V0 Vt Lt) as [EL1 EL2]. rewrite !zlen_app. rewrite (factBytes_len fm (w_totalf t) 0). change (zlen (le4 _)) with 4. lia. }
  assert (Lz : zlen (fbytes (waveUpdate fb fm x0 (xs t) f0 t)) = first + size) by (unfold flength in Lfl; lia).
  rewrite T1, T2 in *. rewrite Lfl in Eb. set (b := fbytes (waveUpdate fb fm x0 (xs t) f0 t)) in *.
  assert (L12 : 12 + zlen (waveBody fb fm (xs t) total size) = first) by (unfold first, waveFirst; lia).
  assert (Ex : X = T_RIFF ++ le4 (zlen b - 8) ++ T_WAVE ++ waveBody fb fm (xs t) total size ++ zskipn first X).
  { set (z := zlen b) in *. clearbody z fb. pose proof (same_front (T_RIFF ++ le4 (z - 8) ++ T_WAVE ++ waveBody fb fm (xs t) total size) rest EX LX) as Q.
    rewrite !zlen_app in Q. change (zlen (le4 _)) with 4 in Q. change (zlen T_RIFF) with 4 in Q. change (zlen T_WAVE) with 4 in Q.
    rewrite <- !app_assoc in Q. replace (4 + (4 + (4 + zlen (waveBody fb fm (xs t) total size)))) with first in Q by lia.
    apply Q; [exact Eb|lia]. }
  split; [|split; [|exact RD]].
  - intros fuel Hfu.
    assert (Lz' : zlen b = 12 + zlen (waveBody (T_fmt ++ le4 cs ++ content) fm (xs t) total size) + size) by (fold fb; lia).
    destruct (wave_read_header host cs content fm (xs t) total size (zlen b) X (zskipn first X) fuel E2 E3 ltac:(lia) (fun s => E5 B s) Vt Ex Lz' ltac:(lia) Hb Ht Hfu) as (f' & R).
    cbv zeta in R. fold fb in R. rewrite L12 in R. exists (WaveSt (Some fm) (fmtCoefs fm) true first size (if hasFact fm then Some total else None) (map foundMark (wx_marks (xs t))) (miscFound (wx_misc (xs t)))), f'. unfold waveOpen, hbind. rewrite R. cbn [rbind]. split; [|split; [|split]].
    + unfold waveParsed. cbn [wv_fmt wv_data wv_fact wv_first wv_dsize negb]. destruct (hasFact fm) eqn:Hh; [reflexivity|]. specialize (Hfa eq_refl).
      assert (Hbp : 0 < f_bpp fm /\ f_fpp fm = 1).
      { destruct Hf as [n ch rate -> Hn Hc|ch rate -> Hc|ch rate -> Hc|c ch rate -> Hcc Hc|ch rate -> Hc|ch rate -> Hc]; cbn [f_bpp f_fpp]; try (split; [|reflexivity]; nia); discriminate Hh. }
      destruct Hbp as [Hbp Hfp]. rewrite Hfp. replace (f_bpp fm =? 0) with false by lia. cbn [negb andb]. change (1 =? 0) with false. cbn [negb].
      assert (EC : computeTotal 0 size fm = total).
      { rewrite Hfa. apply (computeTotal_exact (f_bpp fm) total fm eq_refl Hfp Hbp); [lia|]. rewrite <- Hfa. change (2 ^ 32) with 4294967296 in *. change (2 ^ 62) with 4611686018427387904.
        unfold first, waveFirst in *. pose proof (zlen_nonneg (waveBody fb fm x0 0 0)). lia. }
      rewrite EC. reflexivity.
    + cbn [wv_marks]. rewrite map_map. apply map_ext_in. intros m Hm. destruct Vt as (_ & V2 & _). rewrite Forall_forall in V2. destruct (V2 m Hm) as (_ & _ & N1 & N2).
      unfold foundMark. cbn [wn_id wn_pos wn_name wn_comment]. rewrite !zstring_text by assumption. reflexivity.
    + reflexivity.
    + reflexivity.
  - unfold waveRecognize, fseek, fread. cbn [fbytes fpos]. rewrite zskipn_0 by lia.
    assert (Ez : zfirstn 8 X = T_RIFF ++ le4 (zlen b - 8)).
    { rewrite Ex at 1. rewrite app_assoc. change 8 with (zlen (T_RIFF ++ le4 (zlen b - 8))) at 1. apply zfirstn_exact. }
    rewrite Ez. change (zlen (T_RIFF ++ le4 (zlen b - 8))) with 8. change (8 =? 8) with true. cbn [negb orb].
    change (zfirstn 4 (T_RIFF ++ le4 (zlen b - 8))) with T_RIFF. change (teq T_RIFF T_RIFF) with true. cbn [negb].
    assert (Ew : zfirstn 4 (zskipn (0 + 8) X) = T_WAVE).
    { rewrite Ex. rewrite app_assoc. change (0 + 8) with (zlen (T_RIFF ++ le4 (zlen b - 8))). rewrite zskipn_exact. change 4 with (zlen T_WAVE). apply zfirstn_exact. }
    rewrite Ew. reflexivity.
Qed.
Lemma wave_conclude {F W} (B : Build) (host : order) fm fb x0 (xs : wtrack -> wextra) (r : codec F) (back : F -> W) size total frames f0 (st_file : file) t :
  waveFmt host fm -> fmtBytes fm = Ok fb -> validExtra x0 -> (forall t, validExtra (xs t) /\ sameLayout x0 (xs t)) ->
  let first := waveFirst fb fm x0 in
  0 <= size -> 0 <= total < 2 ^ 32 -> first + size <= 2 ^ 32 - 24 ->
  (hasFact fm = false -> size = f_bpp fm * total) ->
  st_file = waveUpdate fb fm x0 (xs t) f0 t -> w_totalf t = total -> w_dsize t = size ->
  waveFront fb fm x0 (first + size) (fbytes f0) ->
  first + size <= zlen (fbytes st_file) ->
  readsAs B r back (fbytes st_file) first total frames ->
  waveReopens B host (fbytes st_file) r back fm (xs t) first size total frames.
Proof. intros. eapply wave_conclude_front; eauto. Qed.
Lemma wave_updated_len fb fm x0 (xs : wtrack -> wextra) limit f0 t : validExtra x0 -> (forall t, validExtra (xs t) /\ sameLayout x0 (xs t)) ->
  waveFront fb fm x0 limit (fbytes f0) -> waveFirst fb fm x0 <= zlen (fbytes (waveUpdate fb fm x0 (xs t) f0 t)).
Proof.
  intros V0 Vx (sz & inf & cue & fact & ds & rest & Ls & Li & Lc & Lf & Ld & E & _). destruct (Vx t) as [Vt Lt].
  pose proof (body_len fb fm x0 (xs t) 0 (w_totalf t) 0 (w_dsize t) V0 Vt Lt) as EL.
  rewrite (waveUpdate_front fb fm x0 (xs t) f0 t sz inf cue fact ds rest) by auto. rewrite !zlen_app. change (zlen (le4 _)) with 4. change (zlen T_RIFF) with 4. change (zlen T_WAVE) with 4.
  unfold waveFirst. pose proof (zlen_nonneg rest). lia.
Qed.

(** Uncompressed formats: bytes per sample, and whether samples are signed integers. *)
Inductive wavePCM (fm : format) (sgn : bool) (n : nat) : Prop :=
| WP_int ch rate : let m := Z.of_nat n in fm = mkFmt rate (if m =? 1 then Unsigned else TwosComp) (8 * m) ch LittleEndian CNone 1 (m * ch) -> sgn = negb (m =? 1) ->
    1 <= m <= 4 -> 0 < ch -> m * ch < 2 ^ 16 -> 0 <= rate -> rate * (m * ch) < 2 ^ 32 -> wavePCM fm sgn n
| WP_float ch rate : fm = mkFmt rate Float 32 ch LittleEndian CNone 1 (4 * ch) -> sgn = false -> n = 4%nat -> 0 < ch -> 4 * ch < 2 ^ 16 -> 0 <= rate -> rate * (4 * ch) < 2 ^ 32 -> wavePCM fm sgn n
| WP_double ch rate : fm = mkFmt rate Double 64 ch LittleEndian CNone 1 (8 * ch) -> sgn = false -> n = 8%nat -> 0 < ch -> 8 * ch < 2 ^ 16 -> 0 <= rate -> rate * (8 * ch) < 2 ^ 32 -> wavePCM fm sgn n.
Lemma wavePCM_fmt host fm sgn n : wavePCM fm sgn n -> waveFmt host fm /\ (1 <= n)%nat /\ 0 < f_chan fm /\ f_bpp fm = Z.of_nat n * f_chan fm.
Proof.
  intros [ch rate m -> -> Hm Hc H1 H2 H3|ch rate -> -> -> Hc H1 H2 H3|ch rate -> -> -> Hc H1 H2 H3]; cbn [f_chan f_bpp].
  - split; [apply (WF_int host _ m ch rate); auto|]. unfold m in *. split; lia.
  - split; [apply (WF_float host _ ch rate); auto|]. lia.
  - split; [apply (WF_double host _ ch rate); auto|]. lia.
Qed.

Theorem C35_wave_pcm_roundtrip_partial :
  forall (B : Build) host fm sgn n, wavePCM fm sgn n ->
  forall x0 (xs : wtrack -> wextra), validExtra x0 -> (forall t, validExtra (xs t) /\ sameLayout x0 (xs t)) ->
  exists fb, fmtBytes fm = Ok fb /\
  forall (V W : Type) (conv : V -> list Z) (back : list Z -> W) junk cap (ops : list wop),
    let ch := f_chan fm in let bpf := Z.of_nat n * ch in let first := waveFirst fb fm x0 in
    let total := zlen (written ops) in
    zlen junk = ch -> spaced false (ops ++ [Sync]) ->
    Forall (fun v => frameOf ch (fits sgn n) (conv v)) (written ops) ->
    first + bpf * total < 2 ^ 31 ->
    exists st, wrun (pcmW LittleEndian n ch) conv junk true (fun f t => waveUpdate fb fm x0 (xs t) f t)
        (openWrite (pcmW LittleEndian n ch) (waveInit fb fm x0) first cap tt) (ops ++ [Sync]) = Ok st /\
      waveReopens B host (fbytes (ws_file st)) (pcmR LittleEndian sgn n ch) back fm (xs (ws_track st)) first (bpf * total) total (map (fun v => back (conv v)) (written ops)).
Proof.
  intros B host fm sgn n Hp x0 xs V0 Vx. destruct (wavePCM_fmt host _ _ _ Hp) as (Hf & Hn & Hc & Eb). destruct (wave_fmt host fm Hf) as (cs & content & Efb & _).
  exists (T_fmt ++ le4 cs ++ content). split; [exact Efb|]. set (fb := T_fmt ++ le4 cs ++ content) in *. clearbody fb.
  intros V W conv back junk cap ops ch bpf first total Hj Hsp Hok Hs. change (2 ^ 31) with 2147483648 in Hs. fold ch in Hc, Eb.
  assert (Pb : 0 < bpf) by (unfold bpf; apply Z.mul_pos_pos; lia). pose proof (zlen_nonneg (written ops) : 0 <= total) as Zt.
  assert (H0 : 0 <= first) by (unfold first, waveFirst; pose proof (zlen_nonneg (waveBody fb fm x0 0 0)); lia).
  assert (Hm : total <= bpf * total) by nia.
  destruct (pcm_file (W := W) B LittleEndian sgn n ch Hn Hc conv back junk (fun f t => waveUpdate fb fm x0 (xs t) f t) (waveInit fb fm x0) first cap ops Hj H0
      (updKeeps_for _ _ _ _ (wave_keeps fb fm x0 xs V0 Vx)) _ (wave_front fb fm x0 xs (first + bpf * total) bpf V0 Vx ltac:(fold first; lia)) Hsp Hok Hs)
      as (st & f0 & R & Ef & HF & T0 & T1 & T2 & T3 & Fit & RD).
  exists st. split; [exact R|]. fold ch bpf in T2, T3, Fit. fold total in T1, T2, T3, Fit.
  assert (L0 : first <= zlen (fbytes (ws_file st))) by (rewrite Ef; exact (wave_updated_len fb fm x0 xs _ f0 (ws_track st) V0 Vx HF)).
  specialize (RD (or_intror L0)).
  apply (wave_conclude B host fm fb x0 xs _ back (bpf * total) total _ f0 (ws_file st) (ws_track st)); auto; try (change (2 ^ 32) with 4294967296; fold first; lia).
  fold first. destruct (written ops) eqn:E; [unfold total; change (zlen (@nil V)) with 0; rewrite Z.mul_0_r; lia|]. apply Fit. congruence.
Qed.
Print Assumptions C35_wave_pcm_roundtrip_partial.

Theorem C35_wave_g711_roundtrip_partial :
  forall (B : Build) host rate ch, 0 < ch < 2 ^ 16 -> 0 <= rate -> rate * ch < 2 ^ 32 ->
  forall x0 (xs : wtrack -> wextra), validExtra x0 -> (forall t, validExtra (xs t) /\ sameLayout x0 (xs t)) ->
  (let fm := mkFmt rate TwosComp 16 ch host CUlaw 1 ch in
   exists fb, fmtBytes fm = Ok fb /\
   forall (V W : Type) (conv : V -> list Z) (back : list Z -> W) junk cap (ops : list wop),
    let first := waveFirst fb fm x0 in let total := zlen (written ops) in
    zlen junk = ch -> spaced false (ops ++ [Sync]) -> Forall (fun v => zlen (conv v) = ch) (written ops) -> first + ch * total <= 2 ^ 32 - 24 ->
    exists st, wrun (ulawW ch) conv junk true (fun f t => waveUpdate fb fm x0 (xs t) f t) (openWrite (ulawW ch) (waveInit fb fm x0) first cap tt) (ops ++ [Sync]) = Ok st /\
      waveReopens B host (fbytes (ws_file st)) (ulawR ch) back fm (xs (ws_track st)) first (ch * total) total
        (map (fun v => back (map (fun x => ulaw2linear (linear2ulaw x)) (conv v))) (written ops))) /\
  (let fm := mkFmt rate TwosComp 16 ch host CAlaw 1 ch in
   exists fb, fmtBytes fm = Ok fb /\
   forall (V W : Type) (conv : V -> list Z) (back : list Z -> W) junk cap (ops : list wop),
    let first := waveFirst fb fm x0 in let total := zlen (written ops) in
    zlen junk = ch -> spaced false (ops ++ [Sync]) -> Forall (fun v => zlen (conv v) = ch) (written ops) -> first + ch * total <= 2 ^ 32 - 24 ->
    exists st, wrun (alawW ch) conv junk true (fun f t => waveUpdate fb fm x0 (xs t) f t) (openWrite (alawW ch) (waveInit fb fm x0) first cap tt) (ops ++ [Sync]) = Ok st /\
      waveReopens B host (fbytes (ws_file st)) (alawR ch) back fm (xs (ws_track st)) first (ch * total) total
        (map (fun v => back (map (fun x => alaw2linear (linear2alaw x)) (conv v))) (written ops))).
Proof.
  intros B host rate ch Hc Hr Hrc x0 xs V0 Vx. assert (Hc0 : 0 < ch) by lia. split; intros fm.
  - assert (Hf : waveFmt host fm) by (apply (WF_g711 host _ CUlaw ch rate); auto). destruct (wave_fmt host fm Hf) as (cs & content & Efb & _).
    exists (T_fmt ++ le4 cs ++ content). split; [exact Efb|]. set (fb := T_fmt ++ le4 cs ++ content) in *. clearbody fb.
    intros V W conv back junk cap ops first total Hj Hsp Hok Hs. pose proof (zlen_nonneg (written ops) : 0 <= total) as Zt. change (2 ^ 32) with 4294967296 in *.
    assert (H0 : 0 <= first) by (unfold first, waveFirst; pose proof (zlen_nonneg (waveBody fb fm x0 0 0)); lia). assert (Hm : total <= ch * total) by nia.
    destruct (ulaw_file (W := W) B ch Hc0 conv back junk (fun f t => waveUpdate fb fm x0 (xs t) f t) (waveInit fb fm x0) first cap ops Hj H0
      (updKeeps_for _ _ _ _ (wave_keeps fb fm x0 xs V0 Vx)) _ (wave_front fb fm x0 xs (first + ch * total) ch V0 Vx ltac:(fold first; lia)) Hsp Hok)
      as (st & f0 & R & Ef & HF & T0 & T1 & T2 & T3 & Fit & RD).
    exists st. split; [exact R|]. fold total in T1, T2, T3, Fit.
    assert (L0 : first <= zlen (fbytes (ws_file st))) by (rewrite Ef; exact (wave_updated_len fb fm x0 xs _ f0 (ws_track st) V0 Vx HF)).
    specialize (RD (or_intror L0)).
    apply (wave_conclude B host fm fb x0 xs _ back (ch * total) total _ f0 (ws_file st) (ws_track st)); auto; try (change (2 ^ 32) with 4294967296; fold first; lia).
    fold first. destruct (written ops) eqn:E; [unfold total; change (zlen (@nil V)) with 0; rewrite Z.mul_0_r; lia|]. apply Fit. congruence.
  - assert (Hf : waveFmt host fm) by (apply (WF_g711 host _ CAlaw ch rate); auto). destruct (wave_fmt host fm Hf) as (cs & content & Efb & _).
    exists (T_fmt ++ le4 cs ++ content). split; [exact Efb|]. set (fb := T_fmt ++ le4 cs ++ content) in *. clearbody fb.
    intros V W conv back junk cap ops first total Hj Hsp Hok Hs. pose proof (zlen_nonneg (written ops) : 0 <= total) as Zt. change (2 ^ 32) with 4294967296 in *.
    assert (H0 : 0 <= first) by (unfold first, waveFirst; pose proof (zlen_nonneg (waveBody fb fm x0 0 0)); lia). assert (Hm : total <= ch * total) by nia.
    destruct (alaw_file (W := W) B ch Hc0 conv back junk (fun f t => waveUpdate fb fm x0 (xs t) f t) (waveInit fb fm x0) first cap ops Hj H0
      (updKeeps_for _ _ _ _ (wave_keeps fb fm x0 xs V0 Vx)) _ (wave_front fb fm x0 xs (first + ch * total) ch V0 Vx ltac:(fold first; lia)) Hsp Hok)
      as (st & f0 & R & Ef & HF & T0 & T1 & T2 & T3 & Fit & RD).
    exists st. split; [exact R|]. fold total in T1, T2, T3, Fit.
    assert (L0 : first <= zlen (fbytes (ws_file st))) by (rewrite Ef; exact (wave_updated_len fb fm x0 xs _ f0 (ws_track st) V0 Vx HF)).
    specialize (RD (or_intror L0)).
    apply (wave_conclude B host fm fb x0 xs _ back (ch * total) total _ f0 (ws_file st) (ws_track st)); auto; try (change (2 ^ 32) with 4294967296; fold first; lia).
    fold first. destruct (written ops) eqn:E; [unfold total; change (zlen (@nil V)) with 0; rewrite Z.mul_0_r; lia|]. apply Fit. congruence.
Qed.
Print Assumptions C35_wave_g711_roundtrip_partial.

(** A stereo 24-bit file with two markers and miscellaneous data of an odd size; a marker moves while the file is open. *)
Definition exFm := mkFmt 44100 TwosComp 24 2 LittleEndian CNone 1 6.
Definition exExtra (pos : Z) (text : list Z) := WExtra [(203, text); (212, [])] [WMarker 7 pos [97; 98] []; WMarker (-2) 9 [] [99; 100; 101]].
Definition exFb := T_fmt ++ le4 16 ++ le2 1 ++ le2 2 ++ le4 44100 ++ le4 264600 ++ le2 6 ++ le2 24.
Lemma exExtra_valid pos text : 0 <= pos < 2 ^ 32 -> validExtra (exExtra pos text).
Proof.
  intros Hp. unfold validExtra, exExtra. cbn [wx_misc wx_marks]. split; [repeat constructor; cbn; discriminate|]. split.
  - repeat constructor; cbn [wm_id wm_pos wm_name wm_comment]; try lia; try congruence; unfold cString; repeat constructor; discriminate.
  - cbn. repeat constructor; cbn; intuition lia.
Qed.
Example C35_example :
  wavePCM exFm true 3 /\ fmtBytes exFm = Ok exFb /\ validExtra (exExtra 0 [0; 0; 0]) /\ validExtra (exExtra 5 [88; 89; 90]) /\ sameLayout (exExtra 0 [0; 0; 0]) (exExtra 5 [88; 89; 90]) /\
  forall B : Build, exists st f', 
    wrun (pcmW LittleEndian 3 2) (fun x => x) [0; 0] true (fun f t => waveUpdate exFb exFm (exExtra 0 [0; 0; 0]) (exExtra 5 [88; 89; 90]) f t)
      (openWrite (pcmW LittleEndian 3 2) (waveInit exFb exFm (exExtra 0 [0; 0; 0])) (waveFirst exFb exFm (exExtra 0 [0; 0; 0])) 1024 tt) [Write [[1; 2]; [3; -4]]; Sync; Write [[5; 6]]; Sync] = Ok st /\
    waveOpen LittleEndian 6 (mkFile (fbytes (ws_file st)) 0) =
      Ok (Some ((mkParsed exFm 208 18 3, WaveSt (Some exFm) [] true 208 18 None [WName 7 5 [97; 98; 0; 0] [0; 0]; WName (-2) 9 [0; 0] [99; 100; 101; 0]] [(203, 3, [88; 89; 90]); (212, 0, [])]), f')).
Proof.
  split; [apply (WP_int _ _ _ 2 44100); try reflexivity; cbn; lia|]. split; [reflexivity|]. split; [apply exExtra_valid; lia|]. split; [apply exExtra_valid; lia|].
  split; [split; reflexivity|]. intros B. do 2 eexists. split; [vm_compute; reflexivity|]. vm_compute; reflexivity.
Qed.

(** ** Where the round trip fails *)
(** Sample widths that are not whole bytes: completeSetup accepts 1 to 32 bits, but the header records the bytes of a sample,
    so the file re-opens with the width rounded up. *)
Theorem C35_wave_width_refuted :
  forall rate sf w ch o bpp, 1 <= w <= 32 -> sf = TwosComp \/ sf = Unsigned ->
    fmtBytes (mkFmt rate sf w ch o CNone 1 bpp) = fmtBytes (mkFmt rate sf (8 * ((w + 7) / 8)) ch o CNone 1 bpp).
Proof.
  intros rate sf w ch o bpp Hw Hs. unfold fmtBytes, fmtFields, sampleSize, isInt. cbn [f_comp f_sf f_width f_chan f_rate].
  rewrite !Z.quot_div_nonneg by lia. replace ((8 * ((w + 7) / 8) + 7) / 8) with ((w + 7) / 8) by lia. destruct Hs as [-> | ->]; reflexivity.
Qed.
Print Assumptions C35_wave_width_refuted.
Theorem C35_wave_12_bit_refuted :
  forall (B : Build) host, let fm := mkFmt 8000 TwosComp 12 1 LittleEndian CNone 1 2 in
  exists fb s f', fmtBytes fm = Ok fb /\
    let x := WExtra [] [] in let b := T_RIFF ++ le4 (12 + zlen (waveBody fb fm x 2 4) + 4 - 8) ++ T_WAVE ++ waveBody fb fm x 2 4 ++ [1; 0; 2; 0] in
    waveOpen host 6 (mkFile b 0) = Ok (Some ((mkParsed (mkFmt 8000 TwosComp 16 1 LittleEndian CNone 1 2) 44 4 2, s), f')).
Proof. intros B host fm. eexists _, _, _. split; [reflexivity|]. cbv zeta. vm_compute. reflexivity. Qed.
Print Assumptions C35_wave_12_bit_refuted.
(** A byte rate of 2^32 or more, or a frame of 65536 bytes or more: writing the header converts a number to an integer type
    that cannot hold it. *)
Theorem C35_wave_byte_rate_refuted :
  forall rate sf w ch o, 1 <= w <= 32 -> sf = TwosComp \/ sf = Unsigned -> 0 < ch -> let fs := (w + 7) / 8 * ch in
    fs < 2 ^ 16 -> 0 <= rate < 2 ^ 32 -> 2 ^ 32 <= rate * fs -> fmtBytes (mkFmt rate sf w ch o CNone 1 fs) = UB.
Proof.
  intros rate sf w ch o Hw Hs Hc fs Hfs Hr Hb. unfold fmtBytes, fmtFields, sampleSize. cbn [f_comp f_sf f_width f_chan f_rate]. rewrite !Z.quot_div_nonneg by lia.
  replace (match sf with Float => 4 | Double => 8 | _ => (w + 7) / 8 end * ch) with fs by (destruct Hs as [-> | ->]; reflexivity).
  assert (0 < fs) by (unfold fs; apply Z.mul_pos_pos; lia). change (2 ^ 16) with 65536 in *. change (2 ^ 32) with 4294967296 in *.
  rewrite ck32_ok by (change (2 ^ 31) with 2147483648; lia). cbn [rbind]. rewrite toU_ok by (change (2 ^ 16) with 65536; lia). cbn [rbind]. rewrite toU_ok by (change (2 ^ 32) with 4294967296; lia). cbn [rbind squish].
  rewrite Z.quot_1_r. unfold toUnsigned. change (2 ^ 32) with 4294967296. replace (rate * fs <? 4294967296) with false by lia. rewrite andb_false_r. reflexivity.
Qed.
Print Assumptions C35_wave_byte_rate_refuted.
Theorem C35_wave_frame_size_refuted :
  forall rate sf w ch o, 1 <= w <= 32 -> sf = TwosComp \/ sf = Unsigned -> let fs := (w + 7) / 8 * ch in
    2 ^ 16 <= fs < 2 ^ 31 -> fmtBytes (mkFmt rate sf w ch o CNone 1 fs) = UB.
Proof.
  intros rate sf w ch o Hw Hs fs Hfs. unfold fmtBytes, fmtFields, sampleSize. cbn [f_comp f_sf f_width f_chan f_rate]. rewrite !Z.quot_div_nonneg by lia.
  replace (match sf with Float => 4 | Double => 8 | _ => (w + 7) / 8 end * ch) with fs by (destruct Hs as [-> | ->]; reflexivity).
  rewrite ck32_ok by (change (2 ^ 16) with 65536 in *; change (2 ^ 31) with 2147483648 in *; lia). cbn [rbind]. unfold toUnsigned.
  replace (fs <? 2 ^ 16) with false by lia. rewrite andb_false_r. reflexivity.
Qed.
Print Assumptions C35_wave_frame_size_refuted.
Example C35_wave_limits_example : (let fs := (16 + 7) / 8 * 2000 in fs < 2 ^ 16 /\ 2 ^ 32 <= 2000000 * fs) /\ 2 ^ 16 <= (32 + 7) / 8 * 20000 < 2 ^ 31.
Proof. vm_compute. intuition congruence. Qed.
(** IMA ADPCM with 256 channels: the block size does not fit in its field and reads back as 0. *)
Theorem C35_wave_ima_channels_refuted :
  forall (B : Build) host, let fm := mkFmt 8000 TwosComp 16 256 host CIMA 505 65536 in
  exists fb s f', fmtBytes fm = Ok fb /\
    let x := WExtra [] [] in let b := T_RIFF ++ le4 (12 + zlen (waveBody fb fm x 0 0) - 8) ++ T_WAVE ++ waveBody fb fm x 0 0 in
    waveOpen host 6 (mkFile b 0) = Ok (Some ((mkParsed (mkFmt 8000 TwosComp 16 256 host CIMA 505 0) 60 0 0, s), f')).
Proof. intros B host fm. eexists _, _, _. split; [reflexivity|]. cbv zeta. vm_compute. reflexivity. Qed.
Print Assumptions C35_wave_ima_channels_refuted.
(** Two markers with one id (accepted, see C48): on reading, the names of both go to the first. *)
Theorem C35_wave_equal_ids_refuted :
  forall (B : Build) host, let x := WExtra [] [WMarker 1 3 [97] [98]; WMarker 1 4 [99] [100]] in
  exists p s f', 
    let b := T_RIFF ++ le4 (12 + zlen (waveBody exFb exFm x 0 0) - 8) ++ T_WAVE ++ waveBody exFb exFm x 0 0 in
    waveOpen host 6 (mkFile b 0) = Ok (Some ((p, s), f')) /\ map (fun w => (wn_id w, wn_pos w, markText (wn_name w), markText (wn_comment w))) (wv_marks s) = [(1, 3, Ok [99], Ok [100]); (1, 4, Ok [], Ok [])].
Proof. intros B host x. eexists _, _, _. cbv zeta. split; [vm_compute; reflexivity|]. vm_compute. reflexivity. Qed.
Print Assumptions C35_wave_equal_ids_refuted.

(** ** C38: opening a WAVE file terminates *)
Lemma st_run {A C} (p : hP A) (k : A -> hP C) f a f' : p f = Ok (Some (a, f')) -> hbind p k f = k a f'.
Proof. intros H. unfold hbind. rewrite H. reflexivity. Qed.
Definition calm {A} (p : hP A) : Prop := forall f, 0 <= fpos f -> p f <> OutOfFuel /\ forall a f', p f = Ok (Some (a, f')) -> fbytes f' = fbytes f.
Lemma tame_calm {A} (p : hP A) : tame p -> calm p. Proof. intros H f _. apply H. Qed.
Lemma readTag_any f : 0 <= fpos f -> exists tag f', readTag f = Ok (Some (tag, f')) /\ fbytes f' = fbytes f /\ fpos f <= fpos f' /\ (fpos f + 4 <= flength f -> fpos f' = fpos f + 4) /\ (flength f < fpos f + 4 -> flength f <= fpos f').
Proof.
  intros Hp. unfold readTag, fread. eexists _, _. split; [reflexivity|]. cbn [fbytes fpos]. split; [reflexivity|]. pose proof (zlen_nonneg (fbytes f)).
  rewrite zlen_firstn, zlen_skipn by lia. unfold flength. lia.
Qed.
Lemma readU_any o n f : 0 <= fpos f -> (0 < n)%nat -> readU o n f = UB \/ fpos f + Z.of_nat n <= flength f /\ exists v, (bytes_ok (fbytes f) = true -> 0 <= v) /\ readU o n f = Ok (Some (v, mkFile (fbytes f) (fpos f + Z.of_nat n))).
Proof.
  intros Hp Hn. unfold readU, fread. set (d := zfirstn _ _). destruct (zlen d =? Z.of_nat n) eqn:E; [|left; reflexivity]. right.
  assert (L : zlen d = Z.min (Z.of_nat n) (Z.max 0 (zlen (fbytes f) - fpos f))) by (unfold d; rewrite zlen_firstn, zlen_skipn by lia; reflexivity).
  apply Z.eqb_eq in E. split; [unfold flength; lia|]. eexists. rewrite E. split; [|reflexivity]. intros Hok.
  assert (K : bytes_ok d = true) by (unfold d, zfirstn, zskipn; apply bytes_ok_firstn, bytes_ok_skipn; exact Hok).
  destruct o; unfold valueOf; [pose proof (be_val_range d K)|pose proof (le_val_range d K)]; lia.
Qed.
(** Each round of the loops over LIST entries reads eight bytes or ends: no more rounds than the file has bytes. *)
Lemma list_round (f : file) (k : list Z -> Z -> hP waveSt) : 0 <= fpos f ->
  (forall tag size f', fbytes f' = fbytes f -> fpos f + 8 <= fpos f' -> fpos f + 8 <= flength f -> (bytes_ok (fbytes f) = true -> 0 <= size) -> k tag size f' <> OutOfFuel /\ forall a f'', k tag size f' = Ok (Some (a, f'')) -> fbytes f'' = fbytes f) ->
  let p := (let! tag := readTag in let! size := readU LittleEndian 4 in k tag size) in
  p f <> OutOfFuel /\ forall a f', p f = Ok (Some (a, f')) -> fbytes f' = fbytes f.
Proof.
  intros Hp Hk. cbv zeta. destruct (readTag_any f Hp) as (tag & f1 & E1 & F1 & P1 & P2 & P3). unfold hbind at 1 3. rewrite E1. cbn [rbind].
  destruct (readU_any LittleEndian 4 f1 ltac:(lia) ltac:(lia)) as [E2|(L2 & v & Hv & E2)]; unfold hbind; rewrite E2; cbn [rbind]; [split; discriminate|].
  assert (L1 : flength f1 = flength f) by (unfold flength; rewrite F1; reflexivity). change (Z.of_nat 4) with 4 in *.
  apply (Hk tag v (mkFile (fbytes f1) (fpos f1 + 4))); [exact F1|cbn [fpos]| |rewrite <- F1; exact Hv]; destruct (Z.le_gt_cases (fpos f + 4) (flength f)) as [C|C]; try specialize (P2 C); try specialize (P3 ltac:(lia)); lia.
Qed.
Lemma adtlLoop_ends fuel : forall endPos s f, 0 <= fpos f -> (1 <= fuel)%nat -> flength f - fpos f < Z.of_nat fuel ->
  adtlLoop fuel endPos s f <> OutOfFuel /\ forall a f', adtlLoop fuel endPos s f = Ok (Some (a, f')) -> fbytes f' = fbytes f.
Proof.
  induction fuel as [|fuel IH]; intros endPos s f Hp H1 Hf; [lia|]. cbn [adtlLoop]. rewrite st_tell.
  destruct (negb (fpos f <? endPos)); [split; [discriminate|unfold hret; intros ? ? [= _ <-]; reflexivity]|].
  apply (list_round f (fun tag size => _) Hp). intros tag size f' F' P' L' Hsz.
  assert (Lf : flength f' = flength f) by (unfold flength; rewrite F'; reflexivity).
  assert (G : forall s' f'', fbytes f'' = fbytes f -> fpos f' <= fpos f'' -> adtlLoop fuel endPos s' f'' <> OutOfFuel /\ forall a g, adtlLoop fuel endPos s' f'' = Ok (Some (a, g)) -> fbytes g = fbytes f).
  { intros s' f'' F'' P''. assert (flength f'' = flength f) by (unfold flength; rewrite F''; reflexivity). rewrite <- F''. apply IH; lia. }
  cbv beta. destruct (teq tag T_labl || teq tag T_note).
  - destruct (readU_any LittleEndian 4 f' ltac:(lia) ltac:(lia)) as [E2|(L2 & v & Hv & E2)]; unfold hbind at 1 4; rewrite E2; cbn [rbind]; [split; discriminate|].
    unfold hbind at 1 3. unfold hread, fread. cbn [fbytes fpos rbind]. set (d := zfirstn _ _). pose proof (zlen_nonneg d).
    destruct (size mod 2 =? 0).
    + rewrite st_ret. apply G; [exact F'|]. cbn [fpos]. lia.
    + rewrite st_skip. apply G; [exact F'|]. cbn [fpos]. lia.
  - rewrite st_skip. apply G; [exact F'|]. cbn [fpos]. pose proof (Z.mod_pos_bound (size + size mod 2) (2 ^ 32) ltac:(reflexivity)). unfold u32, uN. lia.
Qed.
Lemma infoLoop_ends fuel : forall endPos s f, bytes_ok (fbytes f) = true -> 0 <= fpos f -> (1 <= fuel)%nat -> flength f - fpos f < Z.of_nat fuel ->
  infoLoop fuel endPos s f <> OutOfFuel /\ forall a f', infoLoop fuel endPos s f = Ok (Some (a, f')) -> fbytes f' = fbytes f.
Proof.
  induction fuel as [|fuel IH]; intros endPos s f Hok Hp H1 Hf; [lia|]. cbn [infoLoop]. rewrite st_tell.
  destruct (negb (fpos f <? endPos)); [split; [discriminate|unfold hret; intros ? ? [= _ <-]; reflexivity]|].
  apply (list_round f (fun tag size => _) Hp). intros tag size f' F' P' L' Hsz. specialize (Hsz Hok).
  assert (Lf : flength f' = flength f) by (unfold flength; rewrite F'; reflexivity).
  assert (G : forall s' f'', fbytes f'' = fbytes f -> fpos f' <= fpos f'' -> infoLoop fuel endPos s' f'' <> OutOfFuel /\ forall a g, infoLoop fuel endPos s' f'' = Ok (Some (a, g)) -> fbytes g = fbytes f).
  { intros s' f'' F'' P''. assert (flength f'' = flength f) by (unfold flength; rewrite F''; reflexivity). rewrite <- F''. apply IH; try lia. congruence. }
  cbv beta. assert (Q : exists s' f'', (match waveMiscType tag with
                | Some ty => let! d := hread size in hret (withMisc s (wv_misc s ++ [(ty, size, d)]))
                | None => let! _ := hskip size in hret s
                end) f' = Ok (Some (s', f'')) /\ fbytes f'' = fbytes f /\ fpos f' <= fpos f'').
  { destruct (waveMiscType tag).
    - unfold hbind, hread, fread. cbn [rbind]. unfold hret. eexists _, _. split; [reflexivity|]. split; [exact F'|]. cbn [fpos]. match goal with |- context [zlen ?x] => pose proof (zlen_nonneg x) end. lia.
    - rewrite st_skip. unfold hret. eexists _, _. split; [reflexivity|]. split; [exact F'|]. cbn [fpos]. lia. }
  destruct Q as (s' & f'' & E & F'' & P''). rewrite !(st_run _ _ _ _ _ E). destruct (size mod 2 =? 0).
  - rewrite st_ret. apply G; auto.
  - rewrite st_skip. apply G; [exact F''|]. cbn [fpos]. lia.
Qed.
From Verif Require Import PropertiesTerminate.
Lemma parseList_ends s size f : bytes_ok (fbytes f) = true -> 0 <= fpos f ->
  parseList s size f <> OutOfFuel /\ forall a f', parseList s size f = Ok (Some (a, f')) -> fbytes f' = fbytes f.
Proof.
  intros Hok Hp. unfold parseList. destruct (readTag_any f Hp) as (tag & f1 & E1 & F1 & P1 & _). unfold hbind at 1 4. rewrite E1. cbn [rbind]. rewrite st_tell, st_length.
  pose proof (zlen_nonneg (fbytes f1)). fold (flength f1) in H.
  destruct (teq tag T_adtl); [rewrite <- F1; apply adtlLoop_ends; lia|]. destruct (teq tag T_INFO); [rewrite <- F1; apply infoLoop_ends; try lia; congruence|].
  rewrite <- F1. apply tame_ret.
Qed.
Lemma tame_parseCueEntries n : tame (parseCueEntries n). Proof. induction n; cbn [parseCueEntries]; tame_with ltac:(exact IHn). Qed.
Lemma tame_readCoefs n : tame (readCoefs n). Proof. induction n; cbn [readCoefs]; tame_with ltac:(exact IHn). Qed.
Lemma ck32_fuel x : ck32 x <> OutOfFuel. Proof. unfold ck32. destruct (inS 32 x); discriminate. Qed.
Lemma tame_parseFormat {B : Build} host s : tame (parseFormat host s).
Proof.
  assert (P : forall s rate sf w ch, tame (fmtPCM s rate sf w ch)) by (intros; unfold fmtPCM; apply tame_bind; [apply tame_bppPCM|intros; apply tame_ret]).
  assert (P2 : forall s rate w ch, tame (fmtFloat s rate w ch)) by (intros; unfold fmtFloat; tame_with ltac:(apply P)).
  unfold parseFormat, fmtInt, fmtMS, fmtIMA, fmtExt, present.
  tame_with ltac:(first [apply P | apply P2 | apply tame_readCoefs | apply tame_lift; apply ck32_fuel]).
Qed.
Lemma waveChunk_ends {B : Build} host s tag n f : bytes_ok (fbytes f) = true -> 0 <= fpos f ->
  waveChunk host s tag n f <> OutOfFuel /\ forall a f', waveChunk host s tag n f = Ok (Some (a, f')) -> fbytes f' = fbytes f.
Proof.
  intros Hok Hp. unfold waveChunk. destruct (teq tag T_fmt); [apply tame_parseFormat|].
  destruct (teq tag T_data); [destruct (wv_fmt s); [unfold parseData; apply tame_bind; [apply tame_tell|intros; apply tame_ret]|apply tame_fail]|].
  destruct (teq tag T_inst); [apply tame_ret|]. destruct (teq tag T_fact); [unfold parseFact; apply tame_bind; [apply tame_readU|intros; apply tame_ret]|].
  destruct (teq tag T_cue). { assert (T : tame (parseCues s)) by (unfold parseCues; tame_with ltac:(apply tame_parseCueEntries)). apply T. }
  destruct (teq tag T_LIST || teq tag T_list); [apply parseList_ends; auto|]. destruct (teq tag T_INST); [apply tame_ret|].
  destruct (teq tag T_plst); [unfold parsePlayList; apply tame_bind; [apply tame_readU|intros; apply tame_ret]|]. apply tame_ret.
Qed.

(** A WAVE file opens in finitely many steps, whatever it contains, as long as each chunk header the walk comes to leads to a
    higher offset (the offset is kept in 32 bits). *)
Theorem C38_wave_terminates_partial :
  forall (B : Build) host b, bytes_ok b = true -> zfirstn 4 b = T_RIFF -> zfirstn 4 (zskipn 8 b) = T_WAVE ->
    (forall i, walk LittleEndian u32 b (word LittleEndian b 4) i -> i < word LittleEndian b 4 -> i < nextIndex u32 i (word LittleEndian b (u32 (i + 8) + 4))) ->
    exists n, forall fuel, (n <= fuel)%nat -> waveOpen host fuel (mkFile b 0) <> OutOfFuel.
Proof.
  intros B host b Hok HR HW Hi. exists (Z.to_nat (2 ^ 32)). intros fuel Hf. unfold waveOpen. intros E.
  assert (R : waveRead host fuel (mkFile b 0) <> OutOfFuel).
  2:{ unfold hbind in E. destruct (waveRead host fuel (mkFile b 0)) as [[[s f]|]| | |]; cbn [rbind] in E; try discriminate; [|congruence]. destruct (waveParsed s); discriminate. }
  clear E.
  assert (Lb : 12 <= zlen b).
  { pose proof (f_equal zlen HW) as L. change (zlen T_WAVE) with 4 in L. rewrite zlen_firstn, zlen_skipn in L by lia. pose proof (zlen_nonneg b). lia. }
  unfold waveRead. rewrite st_seek. cbn [fbytes].
  unfold hbind at 1, readTag at 1, fread. cbn [fbytes fpos]. rewrite zskipn_0 by lia. rewrite HR. change (zlen T_RIFF) with 4. change (4 =? 4) with true. cbn [rbind]. change (0 + 4) with 4.
  rewrite at_tryU by (try (change (Z.of_nat 4) with 4); lia). change (Z.of_nat 4) with 4. change (4 + 4) with 8.
  unfold hbind at 1, readTag at 1, fread. cbn [fbytes fpos]. rewrite HW. change (zlen T_WAVE) with 4. change (4 =? 4) with true. cbn [rbind]. rewrite !st_assert by reflexivity. cbn [present]. rewrite st_ret.
  set (size := valueOf _ _).
  assert (EW : size = word LittleEndian b 4) by (unfold word, size; rewrite at_zlen by lia; reflexivity). rewrite EW.
  pose proof (word_range LittleEndian b 4 Hok) as WR. change (8 + 4) with (u32 (4 + 8)).
  apply chunkLoop_ends.
  - intros s tag n f Fb Fp. apply waveChunk_ends; [congruence|exact Fp].
  - intros x. unfold u32, uN. apply Z.mod_pos_bound. reflexivity.
  - exact Hi.
  - constructor.
  - change (2 ^ 32) with 4294967296 in *. lia.
Qed.
Print Assumptions C38_wave_terminates_partial.
Definition exRiff : list Z := T_RIFF ++ le4 24 ++ T_WAVE ++ T_LIST ++ le4 2 ++ [65; 66] ++ T_inst ++ le4 4 ++ [65; 66; 67; 68].
Example C38_wave_example : bytes_ok exRiff = true /\ zfirstn 4 exRiff = T_RIFF /\ zfirstn 4 (zskipn 8 exRiff) = T_WAVE /\
  forall i, walk LittleEndian u32 exRiff (word LittleEndian exRiff 4) i -> i < word LittleEndian exRiff 4 -> i < nextIndex u32 i (word LittleEndian exRiff (u32 (i + 8) + 4)).
Proof.
  split; [reflexivity|]. split; [reflexivity|]. split; [reflexivity|]. assert (K : forall i, walk LittleEndian u32 exRiff (word LittleEndian exRiff 4) i -> i = 4 \/ i = 14 \/ i = 26).
  { intros i W. induction W as [|i W [->|[->| ->]] Hi]; [left; reflexivity|right; left; reflexivity|right; right; reflexivity|]. vm_compute in Hi. discriminate. }
  intros i W Hi. destruct (K i W) as [->|[->| ->]]; clear; vm_compute; reflexivity || discriminate.
Qed.

(** A chunk of size 2^32 - 8: the library reads it for ever. *)
Definition loopRiff : list Z := T_RIFF ++ le4 100 ++ T_WAVE ++ [88; 88; 88; 88] ++ le4 (2 ^ 32 - 8).
Theorem C38_wave_loops_refuted :
  forall (B : Build) host fuel, waveOpen host fuel (mkFile loopRiff 0) = OutOfFuel.
Proof.
  intros B host fuel.
  assert (L : chunkLoop LittleEndian u32 (waveChunk host) fuel 100 4 waveSt0 (mkFile loopRiff 12) = OutOfFuel).
  { induction fuel as [|fuel IH]; [reflexivity|]. cbn [chunkLoop]. change (negb (4 <? 100)) with false. cbv iota.
    assert (E1 : readTag (mkFile loopRiff 12) = Ok (Some ([88;88;88;88], mkFile loopRiff 16))) by (vm_compute; reflexivity).
    assert (E2 : readU0 LittleEndian 4 (mkFile loopRiff 16) = Ok (Some (2 ^ 32 - 8, mkFile loopRiff 20))) by (vm_compute; reflexivity).
    unfold hbind at 1. rewrite E1. cbn [rbind]. unfold hbind at 1. rewrite E2. cbn [rbind].
    change (waveChunk host waveSt0 [88; 88; 88; 88] (2 ^ 32 - 8)) with (hret waveSt0). rewrite st_ret, st_seek.
    change (nextIndex u32 4 (2 ^ 32 - 8)) with 4. change (u32 (4 + 8)) with 12. exact IH. }
  assert (E : waveRead host fuel (mkFile loopRiff 0) = chunkLoop LittleEndian u32 (waveChunk host) fuel 100 4 waveSt0 (mkFile loopRiff 12)) by reflexivity.
  unfold waveOpen, hbind. rewrite E, L. reflexivity.
Qed.
Print Assumptions C38_wave_loops_refuted.

(** ** C57: opening *)
(** A format chunk that is cut short: fields are used that were never read. *)
Theorem C57_wave_short_fmt_refuted :
  forall (B : Build) host, waveOpen host 6 (mkFile (T_RIFF ++ le4 24 ++ T_WAVE ++ T_fmt ++ le4 16 ++ le2 1) 0) = UB.
Proof. intros B host. vm_compute. reflexivity. Qed.
Print Assumptions C57_wave_short_fmt_refuted.
(** A LIST chunk that announces more than the file holds. *)
Theorem C57_wave_short_list_refuted :
  forall (B : Build) host, waveOpen host 6 (mkFile (T_RIFF ++ le4 100 ++ T_WAVE ++ T_LIST ++ le4 20 ++ T_INFO) 0) = UB.
Proof. intros B host. vm_compute. reflexivity. Qed.
Print Assumptions C57_wave_short_list_refuted.
(** MS ADPCM with a number of coefficients outside 7..255 stops a debug build; in a release build more than 256 write behind the array. *)
Theorem C57_wave_msadpcm_coefficients_refuted :
  forall host, let b n := T_RIFF ++ le4 2000 ++ T_WAVE ++ T_fmt ++ le4 50 ++ le2 2 ++ le2 1 ++ le4 8000 ++ le4 4096 ++ le2 256 ++ le2 4 ++ le2 32 ++ le2 500 ++ le2 n ++ zrepeat 0 1500 in
    waveOpen (B := Debug) host 6 (mkFile (b 6) 0) = Abort /\ waveOpen (B := Release) host 6 (mkFile (b 300) 0) = UB.
Proof. intros host b. split; vm_compute; reflexivity. Qed.
Print Assumptions C57_wave_msadpcm_coefficients_refuted.
(** IMA ADPCM: checking the block size overflows int for 65535 channels of 65535 frames. *)
Theorem C57_wave_ima_overflow_refuted :
  forall (B : Build) host, waveOpen host 6 (mkFile (T_RIFF ++ le4 100 ++ T_WAVE ++ T_fmt ++ le4 20 ++ le2 0x11 ++ le2 65535 ++ le4 8000 ++ le4 0 ++ le2 0 ++ le2 4 ++ le2 2 ++ le2 65535) 0) = UB.
Proof. intros B host. vm_compute. reflexivity. Qed.
Print Assumptions C57_wave_ima_overflow_refuted.
(** The name of a marker need not end in a zero: asking for it reads on behind the buffer. *)
Theorem C57_wave_unterminated_name_refuted :
  forall (B : Build) host, exists p s f', 
    waveOpen host 6 (mkFile (T_RIFF ++ le4 96 ++ T_WAVE ++ exFb ++ T_cue ++ le4 28 ++ le4 1 ++ cueEntry 0 (WMarker 1 0 [] []) ++ T_LIST ++ le4 18 ++ T_adtl ++ T_labl ++ le4 6 ++ le4 1 ++ [97; 98] ++ T_data ++ le4 0) 0) = Ok (Some ((p, s), f')) /\
    map (fun w => markText (wn_name w)) (wv_marks s) = [UB].
Proof. intros B host. eexists _, _, _. split; [vm_compute; reflexivity|]. reflexivity. Qed.
Print Assumptions C57_wave_unterminated_name_refuted.
