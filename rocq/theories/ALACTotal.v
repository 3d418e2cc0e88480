(** * The encoder stays inside a large enough buffer *)
From Verif Require Import Prelude PreludeFacts MetadataProofs ALACBits ALACGolomb ALACGolombProofs ALACPredict ALACCodec ALACCodecProofs ALACElements ALACPacket ALACSize.

#[local] Existing Instance Wrapping | 0.

(** Room, in bits, that the encoding of one element may touch. *)
Definition monoRoom (depth n : Z) : Z := if depth =? 20 then 29 * n + 360 else shiftOf depth * n + 23 * n + n / 2 + 360.
Definition stereoRoom (depth n : Z) : Z := 2 * shiftOf depth * n + 2 * n * (monoBits depth + 10) + 440.

Lemma monoEscape_total fr depth b p ls : depthOk depth -> bytes_ok b = true -> 0 <= p -> p + zlen ls * depth + 48 <= 8 * zlen b -> exists b' p', monoEscape fr depth b p ls = Ok (b', p').
Proof.
  intros Hd Hb Hp Hl. unfold monoEscape. set (F := headFields fr (zlen ls) 1 ++ map (fun x => (depth, inputOf depth x)) ls).
  assert (Wf : widthsOk F) by (apply widthsOk_app; [apply headFields_widths|apply (widths_map _ depth); [reflexivity|unfold depthOk in Hd; lia]]).
  assert (Bf : fbits F <= zlen ls * depth + 48). { unfold F. rewrite fbits_app, headFields_bits, (fbits_map _ depth) by reflexivity. destruct (zlen ls =? fr); lia. }
  destruct (bbWrites_total F b p Wf Hb Hp ltac:(lia)) as [b' E]. rewrite E. cbn [rbind]. eauto.
Qed.
Lemma stereoEscape_total fr depth b p ls rs : depthOk depth -> length ls = length rs -> bytes_ok b = true -> 0 <= p -> p + zlen ls * depth * 2 + 48 <= 8 * zlen b -> exists b' p', stereoEscape fr depth b p ls rs = Ok (b', p').
Proof.
  intros Hd Le Hb Hp Hl. unfold stereoEscape. rewrite concat_pairs. set (F := headFields fr (zlen ls) 1 ++ map (fun x => (depth, x)) (weave (map (fun x => (inputOf depth (fst x), inputOf depth (snd x))) (combine ls rs)))).
  assert (Wf : widthsOk F) by (apply widthsOk_app; [apply headFields_widths|apply (widths_map _ depth); [reflexivity|unfold depthOk in Hd; lia]]).
  assert (Lc : zlen (map (fun x => (inputOf depth (fst x), inputOf depth (snd x))) (combine ls rs)) = zlen ls) by (unfold zlen; rewrite map_length, combine_length; lia).
  assert (Bf : fbits F <= zlen ls * depth * 2 + 48). { unfold F. rewrite fbits_app, headFields_bits, (fbits_map _ depth), zlen_weave, Lc by reflexivity. destruct (zlen ls =? fr); lia. }
  destruct (bbWrites_total F b p Wf Hb Hp ltac:(lia)) as [b' E]. rewrite E. cbn [rbind]. eauto.
Qed.

Lemma mono_size depth eu n : depthOk depth -> zlen eu = n -> 0 <= n -> Forall (inRange (monoBits depth)) eu ->
  shiftOf depth * n + fbits (golombFields (monoBits depth) eu) <= monoRoom depth n - 240.
Proof.
  intros Hd Le Hn F. unfold monoRoom. destruct (Z.eqb_spec depth 20) as [->|N].
  - pose proof (golomb_size (monoBits 20) eu ltac:(vm_compute; split; discriminate) F) as G. change (monoBits 20) with 20 in *. change (shiftOf 20) with 0. rewrite Le in G. lia.
  - assert (M : monoBits depth = 16) by (unfold depthOk in Hd; destruct Hd as [->|[->|[->| ->]]]; try reflexivity; contradiction). rewrite M in *. pose proof (golomb_size16 eu F) as G. rewrite Le in G. lia.
Qed.
Lemma room_escape depth n : depthOk depth -> 0 <= n -> n * depth + 48 <= monoRoom depth n.
Proof. intros [->|[->|[->| ->]]] Hn; unfold monoRoom, shiftOf; cbn [Z.eqb Z.leb Z.compare Pos.eqb Pos.compare Pos.compare_cont]; lia. Qed.
Lemma room_escape2 depth n : depthOk depth -> 0 <= n -> n * depth * 2 + 48 <= stereoRoom depth n.
Proof. intros [->|[->|[->| ->]]] Hn; unfold stereoRoom, monoBits, shiftOf; cbn [Z.eqb Z.leb Z.compare Pos.eqb Pos.compare Pos.compare_cont]; lia. Qed.

Lemma encodeMono_total fr depth ch b p xs i stride n : depthOk depth -> 8 < fr < 2 ^ 24 -> 0 <= n <= fr -> choiceOk ch -> Forall (inRange (container depth)) xs -> bytes_ok b = true -> 4 <= p -> 0 <= i -> 0 <= stride ->
  (n = 0 \/ i + (n - 1) * stride < zlen xs) -> p + monoRoom depth n <= 8 * zlen b -> exists b' p', encodeMono (W := Wrapping) fr depth ch b p xs i stride n = Ok (b', p').
Proof.
  intros Hd Hf Hn Hc Fx Hb Hp Hi Hst Hin Hl. unfold encodeMono.
  destruct (column_total (Z.to_nat n) xs i stride Hi Hst) as [ls Hls]; [destruct Hin; [left; lia|right; rewrite Z2Nat.id by lia; assumption]|]. rewrite Hls. cbn [rbind].
  destruct (column_spec _ _ _ _ _ Hls Hi Hst) as (Ll & Fl & _). specialize (Fl _ Fx). assert (Zl : zlen ls = n) by (unfold zlen; lia).
  pose proof (room_escape depth n Hd ltac:(lia)) as RE.
  destruct (c_escape ch); [apply monoEscape_total; try assumption; try lia; rewrite Zl; lia|].
  destruct Hc as (_ & Hnu & _ & Lc & _ & Fc & _).
  set (L := headFields fr n (Z.shiftl (shiftOf depth / 8) 1) ++ [(16, 0)] ++ paramFields (c_numU ch) (c_coefsU ch) ++ (if shiftOf depth =? 0 then [] else map (fun x => (shiftOf depth, lowOf depth x)) ls)) in *.
  destruct (shift_facts depth Hd) as (S1 & S2 & S3 & S4 & S5). pose proof (monoBits_range depth Hd) as MB.
  assert (WL : widthsOk L).
  { apply widthsOk_app; [apply headFields_widths|]. apply widthsOk_app; [repeat constructor; cbn [fst]; lia|]. apply widthsOk_app; [apply paramFields_widths|].
    destruct (shiftOf depth =? 0); [constructor|]. apply (widths_map _ (shiftOf depth)); [reflexivity|lia]. }
  assert (BL : fbits L <= 208 + shiftOf depth * n).
  { unfold L. rewrite !fbits_app, headFields_bits, paramFields_bits. change (fbits [(16, 0)]) with 16. destruct (Z.eqb_spec (shiftOf depth) 0) as [E|E]; [change (fbits []) with 0; destruct (n =? fr); nia|].
    rewrite (fbits_map _ (shiftOf depth)) by reflexivity. rewrite Zl. destruct (n =? fr); lia. }
  pose proof (fbits_nonneg L (widthsOk_fields L WL)) as NL.
  assert (Fh : Forall (inRange (monoBits depth)) (map (highOf depth) ls)).
  { clear - Fl Hd. induction Fl as [|x l Hx Fl IH]; [constructor|]. constructor; [apply highOf_range; assumption|exact IH]. }
  assert (Lh : zlen (map (highOf depth) ls) = n) by (unfold zlen in *; rewrite map_length; exact Zl).
  change (depth - shiftOf depth) with (monoBits depth) in *.
  destruct (pc_block_total fr (c_numU ch) (monoBits depth) 9 (c_coefsU ch) (map (highOf depth) ls)) as [eu Hpc]; [lia|exact Lc|lia|lia|].
  destruct (pc_block_undo fr fr (c_numU ch) (monoBits depth) 9 (c_coefsU ch) (map (highOf depth) ls) eu) as (_ & Fe & Le); [lia|lia|exact Hnu|exact Fh|lia|lia|exact Hpc|].
  pose proof (mono_size depth eu n Hd ltac:(lia) ltac:(lia) Fe) as GS. pose proof (golombFields_ok (monoBits depth) eu ltac:(lia) Fe) as [OG BG].
  assert (SN : 0 <= shiftOf depth * n) by nia.
  destruct (bbWrites_total L b p WL Hb ltac:(lia) ltac:(lia)) as [b1 H1]. rewrite H1. cbn [rbind]. apply bbWrites_inv in H1; [|exact WL|exact Hb|lia]. pose proof (wrote_bytes _ _ _ _ H1) as Hb1. pose proof (wrote_len _ _ _ _ H1) as Lb1.
  rewrite Hpc. cbn [rbind].
  destruct (dyn_comp_total (monoBits depth) b1 (p + fbits L) eu) as (b2 & p2 & H2); [lia|exact Fe|exact Hb1|lia|lia|]. rewrite H2. cbn [rbind fst snd].
  apply dyn_comp_wrote in H2; [|lia|exact Fe|exact Hb1|lia]. destruct H2 as [H2 _]. pose proof (wrote_bytes _ _ _ _ H2) as Hb2. pose proof (wrote_len _ _ _ _ H2) as Lb2.
  destruct (escapeBits fr depth n 1 <=? p2 - p); [|eauto]. apply monoEscape_total; [exact Hd|assumption|lia|rewrite Zl; lia].
Qed.

Lemma encodeStereo_total fr depth ch b p xs i stride n : depthOk depth -> 8 < fr < 2 ^ 24 -> 0 <= n <= fr -> choiceOk ch -> Forall (inRange (container depth)) xs -> bytes_ok b = true -> 4 <= p -> 0 <= i -> 0 <= stride ->
  (n = 0 \/ i + 1 + (n - 1) * stride < zlen xs) -> p + stereoRoom depth n <= 8 * zlen b -> exists b' p', encodeStereo (W := Wrapping) fr depth ch b p xs i stride n = Ok (b', p').
Proof.
  intros Hd Hf Hn Hc Fx Hb Hp Hi Hst Hin Hl. unfold encodeStereo.
  destruct (column_total (Z.to_nat n) xs i stride Hi Hst) as [ls Hls]; [destruct Hin; [left; lia|right; rewrite Z2Nat.id by lia; lia]|]. rewrite Hls. cbn [rbind].
  destruct (column_total (Z.to_nat n) xs (i + 1) stride ltac:(lia) Hst) as [rs Hrs]; [destruct Hin; [left; lia|right; rewrite Z2Nat.id by lia; lia]|]. rewrite Hrs. cbn [rbind].
  destruct (column_spec _ _ _ _ _ Hls Hi Hst) as (Ll & Fl & _). specialize (Fl _ Fx). assert (Zl : zlen ls = n) by (unfold zlen; lia).
  destruct (column_spec _ _ _ _ _ Hrs ltac:(lia) Hst) as (Lr & Fr & _). specialize (Fr _ Fx).
  pose proof (room_escape2 depth n Hd ltac:(lia)) as RE.
  destruct (c_escape ch); [apply stereoEscape_total; try assumption; try lia; rewrite Zl; lia|].
  destruct Hc as (Hres & Hnu & Hnv & Lcu & Lcv & Fcu & Fcv).
  destruct (shift_facts depth Hd) as (S1 & S2 & S3 & S4 & S5). pose proof (monoBits_range depth Hd) as MB.
  pose proof (combine_Forall _ _ _ _ Fl Fr) as FF.
  assert (Lc : zlen (combine ls rs) = n) by (unfold zlen; rewrite combine_length; lia).
  assert (CM : combine (map (highOf depth) ls) (map (highOf depth) rs) = map (fun x => (highOf depth (fst x), highOf depth (snd x))) (combine ls rs)).
  { clear. revert rs. induction ls as [|x ls IH]; intros [|y rs]; try reflexivity. cbn [map combine fst snd]. rewrite IH. reflexivity. }
  rewrite CM.
  assert (Fh : Forall (fun x => inRange (monoBits depth) (fst x) /\ inRange (monoBits depth) (snd x)) (map (fun x => (highOf depth (fst x), highOf depth (snd x))) (combine ls rs))).
  { clear - FF Hd. induction FF as [|x l [A B] FF IH]; [constructor|]. constructor; [cbn [fst snd]; split; apply highOf_range; assumption|exact IH]. }
  destruct (mix_total (monoBits depth) (c_res ch) _ ltac:(lia) Hres Fh) as [uv Hmix]. rewrite Hmix. cbn [rbind].
  destruct (mix_list (monoBits depth) (c_res ch) _ uv ltac:(lia) Hres Fh Hmix) as (Fu & Fv & Luv & _).
  assert (Lhs : zlen (map (fun x => (highOf depth (fst x), highOf depth (snd x))) (combine ls rs)) = n) by (unfold zlen in *; rewrite map_length; exact Lc). rewrite Lhs in Luv.
  change (depth - shiftOf depth + 1) with (monoBits depth + 1) in *. set (cb := monoBits depth + 1) in *. assert (CB : 17 <= cb <= 21) by (unfold cb; lia).
  set (shf := if shiftOf depth =? 0 then [] else map (fun lr => (shiftOf depth * 2, Z.lor (Z.shiftl (lowOf depth (fst lr)) (shiftOf depth)) (lowOf depth (snd lr)))) (combine ls rs)) in *.
  assert (Bshf : fbits shf = shiftOf depth * 2 * n).
  { unfold shf. destruct (Z.eqb_spec (shiftOf depth) 0) as [E|E]; [change (fbits []) with 0; nia|]. rewrite (fbits_map _ (shiftOf depth * 2)) by reflexivity. rewrite Lc. reflexivity. }
  assert (Wshf : widthsOk shf).
  { unfold shf. destruct (shiftOf depth =? 0); [constructor|]. apply (widths_map _ (shiftOf depth * 2)); [reflexivity|lia]. }
  clearbody shf.
  set (L := headFields fr n (Z.shiftl (shiftOf depth / 8) 1) ++ [(8, 2); (8, c_res ch)] ++ paramFields (c_numU ch) (c_coefsU ch) ++ paramFields (c_numV ch) (c_coefsV ch) ++ shf) in *.
  assert (WL : widthsOk L).
  { apply widthsOk_app; [apply headFields_widths|]. apply widthsOk_app; [repeat constructor; cbn [fst]; lia|]. apply widthsOk_app; [apply paramFields_widths|].
    apply widthsOk_app; [apply paramFields_widths|exact Wshf]. }
  assert (BL : fbits L <= 352 + shiftOf depth * 2 * n).
  { unfold L. rewrite !fbits_app, headFields_bits, !paramFields_bits, Bshf. change (fbits [(8, 2); (8, c_res ch)]) with 16. destruct (n =? fr); lia. }
  pose proof (fbits_nonneg L (widthsOk_fields L WL)) as NL.
  assert (SN : 0 <= shiftOf depth * 2 * n) by nia. assert (CN : 0 <= n * (cb + 9)) by nia.
  assert (Lu : zlen (map fst uv) = n) by (unfold zlen in *; rewrite map_length; exact Luv). assert (Lv : zlen (map snd uv) = n) by (unfold zlen in *; rewrite map_length; exact Luv).
  destruct (pc_block_total fr (c_numU ch) cb 9 (c_coefsU ch) (map fst uv)) as [eu Hpu]; [lia|exact Lcu|lia|lia|].
  destruct (pc_block_total fr (c_numV ch) cb 9 (c_coefsV ch) (map snd uv)) as [ev Hpv]; [lia|exact Lcv|lia|lia|].
  destruct (pc_block_undo fr fr (c_numU ch) cb 9 (c_coefsU ch) (map fst uv) eu) as (_ & Feu & Leu); [lia|lia|exact Hnu|exact Fu|lia|lia|exact Hpu|].
  destruct (pc_block_undo fr fr (c_numV ch) cb 9 (c_coefsV ch) (map snd uv) ev) as (_ & Fev & Lev); [lia|lia|exact Hnv|exact Fv|lia|lia|exact Hpv|].
  pose proof (golombFields_ok cb eu ltac:(lia) Feu) as [OU _]. pose proof (golombFields_ok cb ev ltac:(lia) Fev) as [OV _].
  pose proof (fbits_nonneg _ OU) as NU. pose proof (fbits_nonneg _ OV) as NV.
  pose proof (golomb_size cb eu ltac:(lia) Feu) as BU. pose proof (golomb_size cb ev ltac:(lia) Fev) as BV. replace (zlen eu) with n in BU by lia. replace (zlen ev) with n in BV by lia.
  assert (RM : stereoRoom depth n = shiftOf depth * 2 * n + 2 * (n * (cb + 9)) + 440) by (unfold stereoRoom, cb; ring). rewrite RM in Hl, RE.
  destruct (bbWrites_total L b p WL Hb ltac:(lia) ltac:(lia)) as [b1 H1]. rewrite H1. cbn [rbind]. apply bbWrites_inv in H1; [|exact WL|exact Hb|lia]. pose proof (wrote_bytes _ _ _ _ H1) as Hb1. pose proof (wrote_len _ _ _ _ H1) as Lb1.
  rewrite Hpu. cbn [rbind].
  destruct (dyn_comp_total cb b1 (p + fbits L) eu) as (b2 & p2 & H2); [lia|exact Feu|exact Hb1|lia|lia|]. rewrite H2. cbn [rbind fst snd].
  apply dyn_comp_wrote in H2; [|lia|exact Feu|exact Hb1|lia]. destruct H2 as [H2 ->]. pose proof (wrote_bytes _ _ _ _ H2) as Hb2. pose proof (wrote_len _ _ _ _ H2) as Lb2.
  rewrite Hpv. cbn [rbind].
  destruct (dyn_comp_total cb b2 (p + fbits L + fbits (golombFields cb eu)) ev) as (b3 & p3 & H3); [lia|exact Fev|exact Hb2|lia|lia|]. rewrite H3. cbn [rbind fst snd].
  apply dyn_comp_wrote in H3; [|lia|exact Fev|exact Hb2|lia]. destruct H3 as [H3 _]. pose proof (wrote_bytes _ _ _ _ H3) as Hb3. pose proof (wrote_len _ _ _ _ H3) as Lb3.
  destruct (escapeBits fr depth n 2 <=? p3 - p); [|eauto]. apply stereoEscape_total; [exact Hd|lia|assumption|lia|rewrite Zl; lia].
Qed.

(** ** A packet *)

(** What must still fit when channel [c] comes next; channels that are done take no more than uncompressed ones. *)
Definition roomAt (depth channels n c : Z) : Z :=
  c * (n * depth + 55) + 7 + (if elementTag channels c =? ID_SCE then monoRoom depth n else stereoRoom depth n).

Lemma encodeLoop_total fr depth channels pick xs n : depthOk depth -> 8 < fr < 2 ^ 24 -> 0 <= n <= fr -> 1 <= channels <= 8 -> (forall c, choiceOk (pick c)) ->
  Forall (inRange (container depth)) xs -> zlen xs = n * channels ->
  forall fuel b p c mono stereo lfe, bytes_ok b = true -> 0 <= p <= c * (n * depth + 55) -> 0 <= c <= channels -> (Z.to_nat (channels - c) <= fuel)%nat ->
  (forall c, 0 <= c < channels -> roomAt depth channels n c <= 8 * zlen b) ->
  exists b' p', encodeLoop (W := Wrapping) fuel fr depth channels pick b p xs c n mono stereo lfe = Ok (Some (b', p')).
Proof.
  intros Hd Hf Hn Hch Hpick Fx Lx. assert (D16 : 16 <= depth) by (unfold depthOk in Hd; lia). assert (ND : 0 <= n * depth) by nia.
  induction fuel as [|fuel IH]; intros b p c mono stereo lfe Hb Hp Hc Hfu HR; cbn [encodeLoop].
  - replace (channels <=? c) with true by lia. eauto.
  - destruct (Z.leb_spec channels c) as [C|C]; [eauto|].
    pose proof (HR c ltac:(lia)) as R. unfold roomAt in R. cbv zeta.
    destruct (tag_plan channels c Hch ltac:(lia)) as [T|[T T2]]; rewrite T in *; clear T; unfold ID_SCE, ID_CPE, ID_LFE in *; cbn [Z.eqb Pos.eqb] in *.
    + pose proof (room_escape depth n Hd ltac:(lia)) as RE.
      destruct (bbWrites_total [(3, 0); (4, mono)] b p) as [b1 H1]; [repeat constructor; cbn [fst]; lia|exact Hb|lia|change (fbits [(3, 0); (4, mono)]) with 7; lia|]. rewrite H1. cbn [rbind].
      apply bbWrites_inv in H1; [|repeat constructor; cbn [fst]; lia|exact Hb|lia]. pose proof (wrote_bytes _ _ _ _ H1) as Hb1. pose proof (wrote_len _ _ _ _ H1) as Lb1.
      destruct (encodeMono_total fr depth (pick c) b1 (p + 7) xs c channels n Hd Hf Hn (Hpick c) Fx Hb1 ltac:(lia) ltac:(lia) ltac:(lia)) as (b2 & p2 & H2); [destruct (Z.eq_dec n 0); [left; assumption|right; nia]|lia|].
      rewrite H2. cbn [rbind fst snd]. apply encodeMono_inv in H2; [|exact Hd|exact Hf|exact Hn|apply Hpick|exact Fx|exact Hb1|lia|lia|lia].
      destruct H2 as (ls & F1 & _ & W2 & O2 & -> & B2 & _). pose proof (fbits_nonneg F1 O2) as NF1. pose proof (escapeBits_le fr depth n 1).
      apply IH; [exact (wrote_bytes _ _ _ _ W2)|nia|lia|lia|]. intros c0 Hc0. rewrite (wrote_len _ _ _ _ W2), Lb1. apply HR. exact Hc0.
    + pose proof (room_escape2 depth n Hd ltac:(lia)) as RE.
      destruct (bbWrites_total [(3, 1); (4, stereo)] b p) as [b1 H1]; [repeat constructor; cbn [fst]; lia|exact Hb|lia|change (fbits [(3, 1); (4, stereo)]) with 7; lia|]. rewrite H1. cbn [rbind].
      apply bbWrites_inv in H1; [|repeat constructor; cbn [fst]; lia|exact Hb|lia]. pose proof (wrote_bytes _ _ _ _ H1) as Hb1. pose proof (wrote_len _ _ _ _ H1) as Lb1.
      destruct (encodeStereo_total fr depth (pick c) b1 (p + 7) xs c channels n Hd Hf Hn (Hpick c) Fx Hb1 ltac:(lia) ltac:(lia) ltac:(lia)) as (b2 & p2 & H2); [destruct (Z.eq_dec n 0); [left; assumption|right; nia]|lia|].
      rewrite H2. cbn [rbind fst snd]. apply encodeStereo_inv in H2; [|exact Hd|exact Hf|exact Hn|apply Hpick|exact Fx|exact Hb1|lia|lia|lia].
      destruct H2 as (ls & rs & F1 & _ & _ & W2 & O2 & -> & B2 & _). pose proof (fbits_nonneg F1 O2) as NF1. pose proof (escapeBits_le fr depth n 2).
      apply IH; [exact (wrote_bytes _ _ _ _ W2)|nia|lia|lia|]. intros c0 Hc0. rewrite (wrote_len _ _ _ _ W2), Lb1. apply HR. exact Hc0.
Qed.

Lemma encode_total fr depth channels pick b xs n : depthOk depth -> 8 < fr < 2 ^ 24 -> 0 <= n <= fr -> 1 <= channels <= 8 -> (forall c, choiceOk (pick c)) ->
  Forall (inRange (container depth)) xs -> bytes_ok b = true -> zlen xs = n * channels ->
  (forall c, 0 <= c < channels -> roomAt depth channels n c <= 8 * zlen b) -> channels * (n * depth + 55) + 10 <= 8 * zlen b ->
  exists b' size, encode (W := Wrapping) fr depth channels pick b xs n = Ok (Some (b', size)).
Proof.
  intros Hd Hf Hn Hch Hpick Fx Hb Lx HR HE. unfold encode.
  destruct (encodeLoop_total fr depth channels pick xs n Hd Hf Hn Hch Hpick Fx Lx (Z.to_nat channels) b 0 0 0 0 0 Hb ltac:(lia) ltac:(lia) ltac:(lia) HR) as (b1 & p1 & E). rewrite E. cbn [rbind].
  apply (encodeLoop_inv fr depth channels pick xs n Hd Hf Hn Hch Hpick Fx) in E; [|exact Hb|lia|lia]. destruct E as (F & W1 & O1 & -> & B1 & _). rewrite Z.sub_0_r in B1.
  pose proof (wrote_bytes _ _ _ _ W1) as Hb1. pose proof (wrote_len _ _ _ _ W1) as Lb1.
  destruct (bbWrite_total b1 (0 + fbits F) ID_END 3 ltac:(lia) ltac:(lia) ltac:(lia)) as [b2 H2]. rewrite H2. cbn [rbind]. apply bbWrite_inv in H2; [|exact Hb1|lia|lia]. pose proof (wrote_len _ _ _ _ H2) as Lb2.
  unfold bbByteAlign. destruct (Z.eqb_spec ((0 + fbits F + 3) mod 8) 0) as [E|E]; [cbn [rbind]; eauto|].
  destruct (bbWrite_total b2 (0 + fbits F + 3) 0 (8 - (0 + fbits F + 3) mod 8) ltac:(lia) ltac:(lia) ltac:(lia)) as [b3 H3]. rewrite H3. cbn [rbind]. eauto.
Qed.

(** ** The buffer of the library *)

(** ModuleState.cpp:147-176 and ALAC.cpp:273-277: the buffer is as large as [bufferSize()] and as the samples of a packet in memory (a
    20- or 24-bit sample has four bytes there, AudioFormat.cpp:31-49 with stretch3to4). *)
Definition chunkBuffer (fr depth channels : Z) : Z :=
  Z.max (fr * channels * ((10 + depth) / 8) + 1) (fr * channels * (if depth =? 16 then 2 else 4)).

Lemma elementTag_pair channels c : 1 <= channels <= 8 -> 0 <= c < channels -> channels <> 2 -> elementTag channels c = ID_SCE \/ 1 <= c.
Proof.
  intros H1 H2 N. destruct (Z.eq_dec c 0) as [->|]; [|right; lia]. left. assert (E : In channels [1;2;3;4;5;6;7;8]) by (cbn [In]; lia).
  cbn [In] in E. destruct E as [<-|[<-|[<-|[<-|[<-|[<-|[<-|[<-|[]]]]]]]]]; try reflexivity. contradiction.
Qed.
Lemma library_room fr depth channels n : depthOk depth -> 1024 <= fr < 2 ^ 24 -> 0 <= n <= fr -> 1 <= channels <= 8 -> (channels <> 2 \/ depth = 20) ->
  (forall c, 0 <= c < channels -> roomAt depth channels n c <= 8 * chunkBuffer fr depth channels) /\ channels * (n * depth + 55) + 34 <= 8 * chunkBuffer fr depth channels.
Proof.
  intros Hd Hf Hn Hch Hx. split.
  - intros c Hc. unfold roomAt. assert (X : (elementTag channels c =? ID_SCE) = true \/ (elementTag channels c =? ID_SCE) = false /\ c + 2 <= channels /\ (1 <= c \/ depth = 20)).
    { destruct (tag_plan channels c Hch Hc) as [T|[T T2]]; rewrite T; [left; reflexivity|right]. split; [reflexivity|]. split; [exact T2|].
      destruct Hx as [Hx|Hx]; [|right; exact Hx]. left. destruct (elementTag_pair channels c Hch Hc Hx) as [E|E]; [|exact E]. rewrite T in E. discriminate. }
    unfold chunkBuffer. destruct X as [->|(-> & X2 & X3)].
    + destruct Hd as [->|[->|[->| ->]]]; unfold monoRoom, shiftOf; cbn [Z.eqb Z.leb Z.compare Pos.eqb Pos.compare Pos.compare_cont].
      * change ((10 + 16) / 8) with 3. nia.
      * change ((10 + 20) / 8) with 3. nia.
      * change ((10 + 24) / 8) with 4. nia.
      * change ((10 + 32) / 8) with 5. nia.
    + destruct Hd as [->|[->|[->| ->]]]; unfold stereoRoom, monoBits, shiftOf; cbn [Z.eqb Z.leb Z.compare Pos.eqb Pos.compare Pos.compare_cont].
      * change ((10 + 16) / 8) with 3. nia.
      * change ((10 + 20) / 8) with 3. nia.
      * change ((10 + 24) / 8) with 4. nia.
      * change ((10 + 32) / 8) with 5. nia.
  - unfold chunkBuffer. destruct Hd as [->|[->|[->| ->]]]; cbn [Z.eqb Pos.eqb].
    + change ((10 + 16) / 8) with 3. nia.
    + change ((10 + 20) / 8) with 3. nia.
    + change ((10 + 24) / 8) with 4. nia.
    + change ((10 + 32) / 8) with 5. nia.
Qed.
