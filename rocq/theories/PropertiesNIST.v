(** * C34, C57: NIST SPHERE files *)
From Verif Require Import Prelude PreludeFacts ByteOrder G711 FileIO Reader ReaderSpec PropertiesReader.
From Verif Require Import Writer WriterSpec WriterProofs WriterHistory Codecs CodecsProofs PropertiesWriter PropertiesRoundTrip HeaderIO FileRoundTrip Chunks SampleVision NIST.
From Coq Require Import String Ascii.

(** ** Decimal numbers *)
Lemma number_snoc a d : number (a ++ [d]) = number a * 10 + (d - 48).
Proof. unfold number. rewrite fold_left_app. reflexivity. Qed.
Lemma digits_spec fuel : forall n, 0 <= n < 10 ^ Z.of_nat fuel -> (1 <= fuel)%nat ->
  Forall (fun c => 48 <= c <= 57) (digits fuel n) /\ number (digits fuel n) = n /\ digits fuel n <> [] /\ zlen (digits fuel n) <= Z.of_nat fuel.
Proof.
  induction fuel as [|fuel IH]; intros n Hn Hf; [lia|]. cbn [digits]. destruct (n <? 10) eqn:E.
  - cbn [app]. split; [constructor; [|constructor]; lia|]. split; [unfold number; cbn [fold_left]; rewrite Z.mod_small by lia; lia|]. split; [discriminate|]. rewrite zlen_cons, zlen_nil. lia.
  - destruct fuel as [|fuel]; [change (10 ^ Z.of_nat 1) with 10 in Hn; lia|].
    rewrite Nat2Z.inj_succ, Z.pow_succ_r in Hn by lia. destruct (IH (n / 10)) as (H1 & H2 & H3 & H4); [|lia|].
    { split; [apply Z.div_pos; lia|]. apply Z.div_lt_upper_bound; lia. }
    split; [apply Forall_app; split; [exact H1|constructor; [|constructor]]; pose proof (Z.mod_pos_bound n 10); lia|].
    split; [rewrite number_snoc, H2; pose proof (Z.div_mod n 10); lia|]. split; [intros C; apply app_eq_nil in C; destruct C; discriminate|].
    rewrite zlen_app, zlen_cons, zlen_nil. lia.
Qed.
Lemma decimal_spec n : 0 <= n < 2 ^ 31 ->
  Forall (fun c => 48 <= c <= 57) (decimal n) /\ number (decimal n) = n /\ decimal n <> [] /\ zlen (decimal n) <= 10.
Proof.
  intros Hn. change (2 ^ 31) with 2147483648 in Hn. unfold decimal. replace (n <? 0) with false by lia.
  apply (digits_spec 10 n); [change (10 ^ Z.of_nat 10) with 10000000000; lia|lia].
Qed.

Lemma span_all q a r : Forall (fun c => q c = true) a -> (match r with [] => True | c :: _ => q c = false end) -> span q (a ++ r) = (a, r).
Proof.
  intros Ha Hr. induction Ha as [|c a Hc Ha IH]; cbn [app span].
  - destruct r as [|c r]; [reflexivity|]. cbn [span]. rewrite Hr. reflexivity.
  - rewrite Hc, IH. reflexivity.
Qed.
Lemma scanD_decimal n r : 0 <= n < 2 ^ 31 -> (match r with [] => True | c :: _ => isDigit c = false end) -> scanD (decimal n ++ r) = Ok (Some (n, r)).
Proof.
  intros Hn Hr. destruct (decimal_spec n Hn) as (H1 & H2 & H3 & H4). unfold scanD.
  destruct (decimal n) as [|d ds] eqn:E; [congruence|]. pose proof H1 as H1'. apply Forall_cons_iff in H1' as [Hd _].
  cbn [app skipWs]. assert (isSpace d = false) as -> by (unfold isSpace; lia). cbv iota.
  replace (d =? 45) with false by lia. replace (d =? 43) with false by lia.
  change (d :: ds ++ r) with ((d :: ds) ++ r). rewrite span_all; [|eapply Forall_impl; [|exact H1]; cbn; unfold isDigit; lia|exact Hr]. cbv zeta. rewrite H2.
  change (2 ^ 31) with 2147483648 in Hn. unfold inS. change (2 ^ (32 - 1)) with 2147483648. replace ((- (2147483648) <=? n) && (n <? 2147483648)) with true by lia. reflexivity.
Qed.
Lemma scanD_blank t : scanD (32 :: t) = scanD t.
Proof. reflexivity. Qed.

(** ** Searching line by line *)
Definition oneLine (l : list Z) : Prop := Forall (fun c => c <> 10) l.
Lemma strstr_word k l t : oneLine l -> strstr (10 :: k) (l ++ t) = strstr (10 :: k) t.
Proof.
  induction 1 as [|c l Hc Hl IH]; [reflexivity|]. cbn [app strstr strip]. replace (10 =? c) with false by lia. exact IH.
Qed.
Lemma strstr_line k l t : oneLine l -> strip (10 :: k) (line l ++ t) = None -> strstr (10 :: k) (line l ++ t) = strstr (10 :: k) t.
Proof.
  intros Hl H. unfold line in *. cbn [app] in *. cbn [strstr]. rewrite H. now apply strstr_word.
Qed.
Lemma strstr_here p t r : strip p t = Some r -> strstr p t = Some r.
Proof. intros H. destruct t; cbn [strstr]; now rewrite H. Qed.

Lemma oneLine_app a b : oneLine a -> oneLine b -> oneLine (a ++ b).
Proof. intros. now apply Forall_app. Qed.
Lemma oneLine_dec n : 0 <= n < 2 ^ 31 -> oneLine (decimal n).
Proof. intros H. destruct (decimal_spec n H) as [F _]. eapply Forall_impl; [|exact F]. cbn. lia. Qed.

(** A header: what the text says, field by field. *)
Section Header.
Variables (ch total rate nb sig ncod : Z) (bf cod pad : list Z).
Hypothesis (Hch : 0 <= ch < 2 ^ 31) (Htot : 0 <= total < 2 ^ 31) (Hrate : 0 <= rate < 2 ^ 31) (Hnb : 0 <= nb < 2 ^ 31) (Hsig : 0 <= sig < 2 ^ 31) (Hncod : 0 <= ncod < 2 ^ 31).
Hypothesis (Hbf : oneLine bf) (Hcod : oneLine cod).
Definition T : list Z :=
  txt "NIST_1A" ++ line (txt "   1024") ++ intLine K_chan ch ++ intLine K_count total ++ intLine K_rate rate ++
  intLine K_nbytes nb ++ strLine K_order nb bf ++ intLine K_sig sig ++ strLine K_coding ncod cod ++ line (txt "end_head") ++ [10] ++ pad.
Ltac oneline := repeat apply oneLine_app; first [apply oneLine_dec; assumption | assumption | repeat constructor; discriminate].
Ltac find := unfold T, intLine, strLine; cbv beta; rewrite strstr_word by oneline;
  repeat (rewrite strstr_line; [|oneline|reflexivity]).

Lemma find_int k v after old : 0 <= v < 2 ^ 31 -> (match after with [] => True | c :: _ => isDigit c = false end) ->
  strstr (10 :: k ++ txt " -i") T = Some (txt " " ++ decimal v ++ after) -> nistInt T k old = Ok (Some (Some v)).
Proof. intros Hv Ha E. unfold nistInt. rewrite E. cbn [txt app]. change (Z.of_nat (nat_of_ascii " ")) with 32. rewrite scanD_blank, (scanD_decimal v after Hv Ha). reflexivity. Qed.

Lemma read_chan old : nistInt T K_chan old = Ok (Some (Some ch)).
Proof. eapply find_int; [exact Hch| |find; apply strstr_here; reflexivity]. reflexivity. Qed.
Lemma read_count old : nistInt T K_count old = Ok (Some (Some total)).
Proof. eapply find_int; [exact Htot| |find; apply strstr_here; reflexivity]. reflexivity. Qed.
Lemma read_rate old : nistInt T K_rate old = Ok (Some (Some rate)).
Proof. eapply find_int; [exact Hrate| |find; apply strstr_here; reflexivity]. reflexivity. Qed.
Lemma read_nb old : nistInt T K_nbytes old = Ok (Some (Some nb)).
Proof. eapply find_int; [exact Hnb| |find; apply strstr_here; reflexivity]. reflexivity. Qed.
Lemma read_sig old : nistInt T K_sig old = Ok (Some (Some sig)).
Proof. eapply find_int; [exact Hsig| |find; apply strstr_here; reflexivity]. reflexivity. Qed.

Definition word79 (w : list Z) : Prop := Forall (fun c => isSpace c = false) w /\ w <> [] /\ (List.length w <= 79)%nat.
Hypothesis (Wbf : word79 bf) (Wcod : word79 cod).
Lemma scanS_word w r : word79 w -> scanS (txt " " ++ w ++ 10 :: r) = Some w.
Proof.
  intros (F & N & L). unfold scanS. cbn [txt app]. change (Z.of_nat (nat_of_ascii " ")) with 32. cbn [skipWs]. change (isSpace 32) with true. cbv iota.
  assert (E : skipWs (w ++ 10 :: r) = w ++ 10 :: r). { destruct w as [|c w]; [congruence|]. apply Forall_cons_iff in F as [Fc _]. cbn [app skipWs]. now rewrite Fc. }
  rewrite E, span_all; [|eapply Forall_impl; [|exact F]; cbn; intros c ->; reflexivity|reflexivity]. cbn [fst]. rewrite firstn_all2 by exact L. destruct w; [congruence|reflexivity].
Qed.
Lemma find_str k n w r oldn olds : 0 <= n < 2 ^ 31 -> word79 w ->
  strstr (10 :: k ++ txt " -s") T = Some (decimal n ++ txt " " ++ w ++ 10 :: r) -> nistStr T k oldn olds = Ok (Some (Some n, Some w)).
Proof. intros Hn Hw E. unfold nistStr. rewrite E. rewrite (scanD_decimal n) by (try exact Hn; reflexivity). cbn [rbind]. rewrite (scanS_word w r Hw). reflexivity. Qed.
Lemma read_order oldn olds : nistStr T K_order oldn olds = Ok (Some (Some nb, Some bf)).
Proof. eapply find_str; [exact Hnb|exact Wbf|]. find. apply strstr_here. match goal with |- strip _ (line (?a ++ ?b ++ ?c) ++ ?rest) = _ => transitivity (Some (c ++ rest)); [reflexivity|] end. rewrite <- !app_assoc. reflexivity. Qed.
Lemma read_coding oldn olds : nistStr T K_coding oldn olds = Ok (Some (Some ncod, Some cod)).
Proof. eapply find_str; [exact Hncod|exact Wcod|]. find. apply strstr_here. match goal with |- strip _ (line (?a ++ ?b ++ ?c) ++ ?rest) = _ => transitivity (Some (c ++ rest)); [reflexivity|] end. rewrite <- !app_assoc. reflexivity. Qed.
End Header.

(** ** The formats *)
Inductive nistFmt (host : order) (rate ch : Z) (fm : format) : Prop :=
| NF_pcm w o : fm = mkFmt rate TwosComp w ch o CNone 1 (2 * ch) -> 9 <= w <= 16 -> nistFmt host rate ch fm
| NF_g711 c : fm = mkFmt rate TwosComp 16 ch host c 1 ch -> c = CUlaw \/ c = CAlaw -> nistFmt host rate ch fm.

Lemma nist_text fm total pad : nistText fm total ++ pad = T (f_chan fm) (s32 total) (f_rate fm) (nistBytes fm) (f_width fm) (zlen (nistCoding fm)) (nistByteFormat fm) (nistCoding fm) pad.
Proof. unfold nistText, T. rewrite <- !app_assoc. reflexivity. Qed.
Lemma s32_id x : 0 <= x < 2 ^ 31 -> s32 x = x.
Proof. intros H. unfold s32. apply sN_small; [lia|]. change (2 ^ (32 - 1)) with (2 ^ 31). lia. Qed.

Lemma nist_parse host rate ch fm total pad : nistFmt host rate ch fm -> 0 < rate < 2 ^ 31 -> 0 < ch -> 2 * ch < 2 ^ 31 -> 0 <= total < 2 ^ 31 ->
  nistWritable fm = true /\ nistParse host (nistText fm total ++ pad) = Ok (Some (fm, total)).
Proof.
  intros Hf Hr Hc Hc2 Ht. rewrite nist_text, s32_id by exact Ht.
  assert (F : f_chan fm = ch /\ f_rate fm = rate /\ 9 <= f_width fm <= 16) by (destruct Hf as [w o -> Hw|c -> _]; cbn [f_chan f_rate f_width]; lia).
  assert (N : nistBytes fm = match f_comp fm with CNone => 2 | _ => 1 end).
  { destruct Hf as [w o -> Hw|c -> [-> | ->]]; unfold nistBytes; cbn [f_comp f_width]; try reflexivity. rewrite Z.quot_div_nonneg by lia. lia. }
  assert (WT : nistWritable fm = true) by (unfold nistWritable; rewrite N; destruct (f_comp fm); reflexivity). split; [exact WT|]. clear WT.
  destruct F as (-> & -> & Fw). change (2 ^ 31) with 2147483648 in *.
  assert (Cl : 0 <= zlen (nistCoding fm) < 2147483648) by (unfold nistCoding; destruct (f_comp fm); split; vm_compute; congruence).
  assert (Nl : 0 <= nistBytes fm < 2147483648) by (rewrite N; destruct (f_comp fm); lia).
  assert (O1 : oneLine (nistCoding fm)) by (unfold nistCoding; destruct (f_comp fm); repeat constructor; discriminate).
  assert (O2 : oneLine (nistByteFormat fm)) by (unfold nistByteFormat; destruct (_ =? 1); [|destruct (f_order fm)]; repeat constructor; discriminate).
  assert (W1 : word79 (nistCoding fm)).
  { unfold nistCoding; destruct (f_comp fm); (split; [repeat constructor|split; [discriminate|apply Nat.leb_le; reflexivity]]). }
  assert (W2 : word79 (nistByteFormat fm)).
  { unfold nistByteFormat; destruct (_ =? 1); [|destruct (f_order fm)]; (split; [repeat constructor|split; [discriminate|apply Nat.leb_le; reflexivity]]). }
  unfold nistParse. rewrite read_chan by (change (2 ^ 31) with 2147483648; auto; lia). cbn [rbind known]. replace (ch <? 1) with false by lia.
  rewrite read_nb by (change (2 ^ 31) with 2147483648; auto; lia). cbn [rbind known].
  assert (X : (if nistBytes fm =? 1 then Ok (CUlaw, 16, ch) else do w <- ck32 (nistBytes fm * 8); do b <- bppPCM w ch; Ok (CNone, w, b)) =
              Ok (match f_comp fm with CNone => (CNone, 16, 2 * ch) | _ => (CUlaw, 16, ch) end)).
  { rewrite N. destruct (f_comp fm); try reflexivity. change (2 =? 1) with false. cbv iota. change (ck32 (2 * 8)) with (Ok 16). cbn [rbind].
    rewrite bppPCM_ok by (try lia; change (2 ^ 31) with 2147483648; change ((16 + 7) / 8) with 2; lia). reflexivity. }
  rewrite X. clear X. cbn [rbind].
  set (TT := T ch total rate (nistBytes fm) (f_width fm) (zlen (nistCoding fm)) (nistByteFormat fm) (nistCoding fm) pad).
  assert (R1 : forall a b, nistStr TT K_coding a b = Ok (Some (Some (zlen (nistCoding fm)), Some (nistCoding fm)))).
  { intros. apply read_coding; change (2 ^ 31) with 2147483648; auto; lia. }
  assert (R2 : forall a b, nistStr TT K_order a b = Ok (Some (Some (nistBytes fm), Some (nistByteFormat fm)))).
  { intros. apply read_order; change (2 ^ 31) with 2147483648; auto; lia. }
  assert (R3 : forall a, nistInt TT K_sig a = Ok (Some (Some (f_width fm)))).
  { intros. apply read_sig; change (2 ^ 31) with 2147483648; auto; lia. }
  assert (R4 : forall a, nistInt TT K_rate a = Ok (Some (Some rate))).
  { intros. apply read_rate; change (2 ^ 31) with 2147483648; auto; lia. }
  assert (R5 : forall a, nistInt TT K_count a = Ok (Some (Some total))).
  { intros. apply read_count; change (2 ^ 31) with 2147483648; auto; lia. }
  clearbody TT. clear W1 W2 O1 O2 Cl Nl.
  destruct Hf as [w o -> Hw|c -> Hcc]; cbn [f_comp f_width] in *.
  - unfold nistReadCoding. rewrite R1. cbn [rbind known]. change (teq (nistCoding _) (txt "pcm")) with true. cbv iota. cbn [rbind].
    unfold nistReadOrder. rewrite R2, N. cbn [rbind known]. change (1 <? 2) with true. cbv iota. cbn [rbind].
    unfold nistByteFormat. rewrite N. change (2 =? 1) with false. cbv iota. cbn [f_order].
    unfold nistReadSig. rewrite R3. cbn [rbind known]. replace ((w <? 1) || (32 <? w)) with false by lia. change (compression_eqb CNone CNone) with true. cbn [andb].
    replace (Z.quot (w + 7) 8 =? 2) with true by (rewrite Z.quot_div_nonneg by lia; lia). cbn [rbind]. rewrite R4. cbn [rbind known]. replace (rate <=? 0) with false by lia. rewrite R5. cbn [rbind known].
    replace ((w <? 1) || (32 <? w)) with false by lia. destruct o; reflexivity.
  - destruct Hcc as [-> | ->]; unfold nistReadCoding; rewrite R1; cbn [rbind known];
      change (teq (nistCoding _) (txt "pcm")) with false; cbn [orb]; cbv iota.
    + change (teq (nistCoding _) (txt "ulaw")) with true. cbn [orb]. cbv iota. cbn [rbind]. unfold nistReadOrder. rewrite R2, N. cbn [rbind known]. change (1 <? 1) with false. cbv iota. cbn [rbind].
      unfold nistReadSig. rewrite R3. cbn [rbind known]. change (compression_eqb CUlaw CNone) with false. cbn [andb orb Z.ltb Z.compare Pos.compare Pos.compare_cont rbind]. rewrite R4. cbn [rbind known]. replace (rate <=? 0) with false by lia. rewrite R5. reflexivity.
    + change (teq (nistCoding _) (txt "ulaw")) with false. change (teq (nistCoding _) (txt "mu-law")) with false. change (teq (nistCoding _) (txt "alaw")) with true. cbn [orb]. cbv iota. cbn [rbind]. unfold nistReadOrder. rewrite R2, N. cbn [rbind known]. change (1 <? 1) with false. cbv iota. cbn [rbind].
      unfold nistReadSig. rewrite R3. cbn [rbind known]. change (compression_eqb CAlaw CNone) with false. cbn [andb orb Z.ltb Z.compare Pos.compare Pos.compare_cont rbind]. rewrite R4. cbn [rbind known]. replace (rate <=? 0) with false by lia. rewrite R5. reflexivity.
Qed.

Lemma cstr_id l : Forall (fun c => c <> 0) l -> cstr l = l.
Proof. induction 1 as [|c l H _ IH]; [reflexivity|]. cbn [cstr]. replace (c =? 0) with false by lia. now rewrite IH. Qed.

Lemma zlen_line l : zlen (line l) = 1 + zlen l. Proof. unfold line. rewrite zlen_cons. lia. Qed.
Lemma zero_line l : Forall (fun c => c <> 0) l -> Forall (fun c => c <> 0) (line l). Proof. intros H. constructor; [discriminate|exact H]. Qed.
Lemma nist_header_shape host rate ch fm total : nistFmt host rate ch fm -> 0 < rate < 2 ^ 31 -> 0 < ch -> 2 * ch < 2 ^ 31 -> 0 <= total < 2 ^ 31 ->
  zlen (nistHeader fm total) = 1024 /\ cstr (nistHeader fm total) = nistHeader fm total.
Proof.
  intros Hf Hr Hc Hc2 Ht.
  assert (F : f_chan fm = ch /\ f_rate fm = rate /\ 9 <= f_width fm <= 16) by (destruct Hf as [w o -> Hw|c -> _]; cbn [f_chan f_rate f_width]; lia).
  assert (N : nistBytes fm = match f_comp fm with CNone => 2 | _ => 1 end).
  { destruct Hf as [w o -> Hw|c -> [-> | ->]]; unfold nistBytes; cbn [f_comp f_width]; try reflexivity. rewrite Z.quot_div_nonneg by lia. lia. }
  destruct F as (Ec & Er & Fw). change (2 ^ 31) with 2147483648 in *.
  assert (D : forall n, 0 <= n < 2147483648 -> Forall (fun c => c <> 0) (decimal n) /\ 0 <= zlen (decimal n) <= 10).
  { intros n Hn. destruct (decimal_spec n) as (H1 & _ & _ & H4); [change (2 ^ 31) with 2147483648; lia|]. split; [eapply Forall_impl; [|exact H1]; cbn; lia|]. pose proof (zlen_nonneg (decimal n)). lia. }
  assert (N' : 0 <= nistBytes fm < 2147483648) by (rewrite N; destruct (f_comp fm); lia).
  assert (Cl : 0 <= zlen (nistCoding fm) <= 4 /\ Forall (fun c => c <> 0) (nistCoding fm)).
  { unfold nistCoding; destruct (f_comp fm); (split; [split; vm_compute; congruence|repeat constructor; discriminate]). }
  assert (Bl : 0 <= zlen (nistByteFormat fm) <= 2 /\ Forall (fun c => c <> 0) (nistByteFormat fm)).
  { unfold nistByteFormat; destruct (_ =? 1); [|destruct (f_order fm)]; (split; [split; vm_compute; congruence|repeat constructor; discriminate]). }
  assert (L : 0 <= zlen (nistText fm total) <= 1024 /\ Forall (fun c => c <> 0) (nistText fm total)).
  { unfold nistText, intLine, strLine. rewrite s32_id by (change (2 ^ 31) with 2147483648; lia). rewrite Ec, Er.
    destruct (D ch) as [D1 D1']; [lia|]. destruct (D total) as [D2 D2']; [lia|]. destruct (D rate) as [D3 D3']; [lia|]. destruct (D (nistBytes fm)) as [D4 D4']; [lia|].
    destruct (D (f_width fm)) as [D5 D5']; [lia|]. destruct (D (zlen (nistCoding fm))) as [D6 D6']; [lia|]. destruct Cl as [Cl Cz]. destruct Bl as [Bl Bz].
    split.
    - repeat first [rewrite zlen_app | rewrite zlen_line]. change (zlen [10]) with 1. rewrite ?zlen_nil.
      repeat match goal with |- context [zlen (txt ?s)] => let v := eval vm_compute in (zlen (txt s)) in change (zlen (txt s)) with v end.
      repeat match goal with |- context [zlen ?k] => match k with K_chan => idtac | K_count => idtac | K_rate => idtac | K_nbytes => idtac | K_order => idtac | K_sig => idtac | K_coding => idtac end; let v := eval vm_compute in (zlen k) in change (zlen k) with v end.
      match goal with |- context [1 + zlen ?x] => match x with nil => replace (zlen x) with 0 by reflexivity end end. lia.
    - repeat first [apply Forall_app; split | apply zero_line | assumption | (repeat constructor; discriminate)]. }
  destruct L as [L1 L2]. unfold nistHeader. set (t := nistText fm total) in *. clearbody t. split.
  - rewrite zlen_app. unfold zrepeat, zlen at 2. rewrite repeat_length. lia.
  - apply cstr_id. apply Forall_app. split; [exact L2|]. apply Forall_forall. intros x Hx. apply repeat_spec in Hx. lia.
Qed.

(** ** The file *)
Definition nistFront (fm : format) (b : list Z) : Prop := exists total0 rest, 0 <= total0 < 2 ^ 31 /\ b = nistHeader fm total0 ++ rest.
Lemma ow_same h h' rest : zlen h = zlen h' -> overwrite (h ++ rest) 0 h' = h' ++ rest.
Proof. intros L. apply (ow_mid [] h h' rest L). Qed.
Lemma nist_front host rate ch fm limit bpf : nistFmt host rate ch fm -> 0 < rate < 2 ^ 31 -> 0 < ch -> 2 * ch < 2 ^ 31 -> 0 < bpf -> limit < 2 ^ 31 ->
  frontOK (nistFront fm) (nistInit fm) nistFirst limit bpf (nistUpdate fm).
Proof.
  intros Hf Hr Hc Hc2 Hb Hl. pose proof (fun t => nist_header_shape host rate ch fm t Hf Hr Hc Hc2) as HS. split.
  - intros b p d Hp _ (t0 & rest & Ht & ->). exists t0, (overwrite rest (p - nistFirst) d). split; [exact Ht|]. destruct (HS t0 Ht) as [L _].
    rewrite ow_past, L by (rewrite L; exact Hp). reflexivity.
  - intros f t H1 H2 H3 H4 (t0 & rest & Ht & E). change (2 ^ 31) with 2147483648 in *. unfold nistFirst in *.
    assert (Ht' : 0 <= w_totalf t < 2147483648) by nia. exists (w_totalf t), rest. split; [exact Ht'|].
    unfold nistUpdate, fwrite, fseek. cbn [fbytes fpos]. rewrite E. apply ow_same. destruct (HS t0 Ht) as [-> _]. destruct (HS _ Ht') as [-> _]. reflexivity.
  - exists 0, []. split; [change (2 ^ 31) with 2147483648; lia|]. now rewrite app_nil_r.
Qed.
Lemma nist_keeps host rate ch fm limit bpf : nistFmt host rate ch fm -> 0 < rate < 2 ^ 31 -> 0 < ch -> 2 * ch < 2 ^ 31 -> 0 < bpf -> limit < 2 ^ 31 ->
  keepsFor (nistUpdate fm) nistFirst limit bpf.
Proof.
  intros Hf Hr Hc Hc2 Hb Hl f t H1 H2 H3 H4 _. unfold nistUpdate, fwrite, fseek. cbn [fbytes fpos]. apply ow_region_after'; [lia| |lia].
  change (2 ^ 31) with 2147483648 in *. unfold nistFirst in *. assert (Ht' : 0 <= w_totalf t < 2147483648) by nia.
  destruct (nist_header_shape host rate ch fm (w_totalf t) Hf Hr Hc Hc2 Ht') as [-> _]. lia.
Qed.
Lemma nist_read host rate ch fm total rest : nistFmt host rate ch fm -> 0 < rate < 2 ^ 31 -> 0 < ch -> 2 * ch < 2 ^ 31 -> 0 <= total < 2 ^ 31 ->
  exists f', nistRead host (mkFile (nistHeader fm total ++ rest) 0) = Ok (Some (mkParsed fm 1024 (zlen rest) total, f')).
Proof.
  intros Hf Hr Hc Hc2 Ht. destruct (nist_header_shape host rate ch fm total Hf Hr Hc Hc2 Ht) as [L Z0].
  assert (M : teq (zfirstn 16 (nistHeader fm total)) nistMagic = true).
  { assert (exists r, nistHeader fm total = nistMagic ++ r) as [r ->].
    { unfold nistHeader, nistText, intLine at 1, line at 2. eexists. cbn [app txt]. rewrite <- ?app_assoc. cbn [app]. unfold nistMagic, line. cbn [app txt]. reflexivity. }
    change 16 with (zlen nistMagic). rewrite zfirstn_exact. reflexivity. }
  destruct (nist_parse host rate ch fm total (zrepeat 32 (1024 - zlen (nistText fm total))) Hf Hr Hc Hc2 Ht) as [_ P]. fold (nistHeader fm total) in P.
  set (b := nistHeader fm total ++ rest). assert (H : zskipn 0 b = nistHeader fm total ++ rest) by (rewrite zskipn_0 by lia; reflexivity).
  assert (Lb : zlen b - 1024 = zlen rest) by (unfold b; rewrite zlen_app; lia).
  unfold nistRead. rewrite st_seek. cbn [fbytes]. replace (hread 1024) with (hread (zlen (nistHeader fm total))) by now rewrite L. hstep H. rewrite L.
  change (1024 =? 1024) with true. rewrite M. cbn [negb]. rewrite Z0. unfold hlift at 1, hbind at 1. rewrite P. cbn [rbind].
  unfold hlength, hbind, hret, flength, rbind. cbv beta iota. cbn [fbytes]. rewrite Lb. eexists. reflexivity.
Qed.

(** PCM of 9 to 16 significant bits in either byte order. *)
Theorem C34_nist_pcm_roundtrip_partial :
  forall (B : Build) (host o : order) w ch rate, 9 <= w <= 16 -> 0 < ch -> 2 * ch < 2 ^ 31 -> 0 < rate < 2 ^ 31 ->
  forall (V W : Type) (conv : V -> list Z) (back : list Z -> W) junk cap (ops : list wop),
    let fm := mkFmt rate TwosComp w ch o CNone 1 (2 * ch) in
    zlen junk = ch -> spaced false (ops ++ [Sync]) ->
    Forall (fun v => frameOf ch (fits true 2) (conv v)) (written ops) ->
    1024 + 2 * ch * zlen (written ops) < 2 ^ 31 ->
    nistWritable fm = true /\
    exists st, wrun (pcmW o 2 ch) conv junk true (nistUpdate fm) (openWrite (pcmW o 2 ch) (nistInit fm) nistFirst cap tt) (ops ++ [Sync]) = Ok st /\
      nistRecognize (ws_file st) = true /\
      reopens B (nistRead host) (fbytes (ws_file st)) (pcmR o true 2 ch) back fm 1024 (zlen (written ops)) (map (fun v => back (conv v)) (written ops)).
Proof.
  intros B host o w ch rate Hw Hc Hc2 Hr V W conv back junk cap ops fm Hj Hsp Hok Hs.
  assert (Hf : nistFmt host rate ch fm) by (apply (NF_pcm host rate ch fm w o eq_refl Hw)).
  split; [apply (nist_parse host rate ch fm 0 [] Hf Hr Hc Hc2); change (2 ^ 31) with 2147483648; lia|].
  destruct (pcm_file (W := W) B o true 2 ch ltac:(lia) Hc conv back junk (nistUpdate fm) (nistInit fm) nistFirst cap ops Hj ltac:(unfold nistFirst; lia)
      (nist_keeps host rate ch fm _ (2 * ch) Hf Hr Hc Hc2 ltac:(lia) Hs) _ (nist_front host rate ch fm _ (2 * ch) Hf Hr Hc Hc2 ltac:(lia) Hs) Hsp Hok ltac:(unfold nistFirst; exact Hs))
      as (st & f0 & R & Ef & (t0 & rest & Ht0 & E0) & T0 & T1 & T2 & T3 & Fit & RD).
  exists st. split; [exact R|]. set (total := zlen (written ops)) in *. pose proof (zlen_nonneg (written ops) : 0 <= total) as Zt.
  assert (Ht : 0 <= total < 2 ^ 31) by (change (2 ^ 31) with 2147483648 in *; nia).
  destruct (nist_header_shape host rate ch fm total Hf Hr Hc Hc2 Ht) as [L1 _]. destruct (nist_header_shape host rate ch fm t0 Hf Hr Hc Hc2 Ht0) as [L0 _].
  assert (Eb : fbytes (ws_file st) = nistHeader fm total ++ rest).
  { rewrite Ef. unfold nistUpdate, fwrite, fseek. cbn [fbytes fpos]. rewrite E0, T1. apply ow_same. lia. }
  destruct (nist_read host rate ch fm total rest Hf Hr Hc Hc2 Ht) as (f' & RH).
  split.
  - unfold nistRecognize, fread, fseek. cbn [fbytes fpos]. rewrite Eb, zskipn_0 by lia. rewrite zfirstn_app_l by lia.
    assert (exists r, nistHeader fm total = nistMagic ++ r) as [r ->].
    { unfold nistHeader, nistText, intLine at 1, line at 2. eexists. cbn [app txt]. rewrite <- ?app_assoc. cbn [app]. unfold nistMagic, line. cbn [app txt]. reflexivity. }
    change 16 with (zlen nistMagic). rewrite zfirstn_exact. reflexivity.
  - eexists (zlen rest), f'. split; [rewrite Eb; exact RH|]. apply RD. right. rewrite Eb, zlen_app, L1. pose proof (zlen_nonneg rest). unfold nistFirst. lia.
Qed.
Print Assumptions C34_nist_pcm_roundtrip_partial.

(** u-law and A-law: the frames come back as the companded samples. *)
Theorem C34_nist_g711_roundtrip_partial :
  forall (B : Build) (host : order) ch rate, 0 < ch -> 2 * ch < 2 ^ 31 -> 0 < rate < 2 ^ 31 ->
  forall (V W : Type) (conv : V -> list Z) (back : list Z -> W) junk cap (ops : list wop),
    let fm c := mkFmt rate TwosComp 16 ch host c 1 ch in
    zlen junk = ch -> spaced false (ops ++ [Sync]) ->
    Forall (fun v => zlen (conv v) = ch) (written ops) -> 1024 + ch * zlen (written ops) < 2 ^ 31 ->
    (exists st, wrun (ulawW ch) conv junk true (nistUpdate (fm CUlaw)) (openWrite (ulawW ch) (nistInit (fm CUlaw)) nistFirst cap tt) (ops ++ [Sync]) = Ok st /\
      reopens B (nistRead host) (fbytes (ws_file st)) (ulawR ch) back (fm CUlaw) 1024 (zlen (written ops)) (map (fun v => back (map (fun x => ulaw2linear (linear2ulaw x)) (conv v))) (written ops))) /\
    (exists st, wrun (alawW ch) conv junk true (nistUpdate (fm CAlaw)) (openWrite (alawW ch) (nistInit (fm CAlaw)) nistFirst cap tt) (ops ++ [Sync]) = Ok st /\
      reopens B (nistRead host) (fbytes (ws_file st)) (alawR ch) back (fm CAlaw) 1024 (zlen (written ops)) (map (fun v => back (map (fun x => alaw2linear (linear2alaw x)) (conv v))) (written ops))).
Proof.
  intros B host ch rate Hc Hc2 Hr V W conv back junk cap ops fm Hj Hsp Hok Hs.
  assert (Hf : forall c, c = CUlaw \/ c = CAlaw -> nistFmt host rate ch (fm c)) by (intros c Hcc; apply (NF_g711 host rate ch (fm c) c eq_refl Hcc)).
  set (total := zlen (written ops)) in *. pose proof (zlen_nonneg (written ops) : 0 <= total) as Zt.
  assert (Ht : 0 <= total < 2 ^ 31) by (change (2 ^ 31) with 2147483648 in *; nia).
  assert (Fin : forall c (Hcc : c = CUlaw \/ c = CAlaw) f0 t, nistFront (fm c) (fbytes f0) -> w_totalf t = total ->
     exists rest f', fbytes (nistUpdate (fm c) f0 t) = nistHeader (fm c) total ++ rest /\ nistFirst <= zlen (fbytes (nistUpdate (fm c) f0 t)) /\
       nistRead host (mkFile (fbytes (nistUpdate (fm c) f0 t)) 0) = Ok (Some (mkParsed (fm c) 1024 (zlen rest) total, f'))).
  { intros c Hcc f0 t (t0 & rest & Ht0 & E0) T1.
    destruct (nist_header_shape host rate ch (fm c) total (Hf c Hcc) Hr Hc Hc2 Ht) as [L1 _]. destruct (nist_header_shape host rate ch (fm c) t0 (Hf c Hcc) Hr Hc Hc2 Ht0) as [L0 _].
    assert (Eb : fbytes (nistUpdate (fm c) f0 t) = nistHeader (fm c) total ++ rest).
    { unfold nistUpdate, fwrite, fseek. cbn [fbytes fpos]. rewrite E0, T1. apply ow_same. lia. }
    destruct (nist_read host rate ch (fm c) total rest (Hf c Hcc) Hr Hc Hc2 Ht) as (f' & RH).
    exists rest, f'. rewrite Eb. split; [reflexivity|]. split; [rewrite zlen_app, L1; pose proof (zlen_nonneg rest); unfold nistFirst; lia|exact RH]. }
  split.
  - destruct (ulaw_file (W := W) B ch Hc conv back junk (nistUpdate (fm CUlaw)) (nistInit (fm CUlaw)) nistFirst cap ops Hj ltac:(unfold nistFirst; lia)
      (nist_keeps host rate ch _ _ _ (Hf _ (or_introl eq_refl)) Hr Hc Hc2 Hc Hs) _ (nist_front host rate ch _ _ _ (Hf _ (or_introl eq_refl)) Hr Hc Hc2 Hc Hs) Hsp Hok)
      as (st & f0 & R & Ef & FR & T0 & T1 & T2 & T3 & Fit & RD).
    exists st. split; [exact R|]. destruct (Fin CUlaw (or_introl eq_refl) f0 (ws_track st) FR T1) as (rest & f' & Eb & L & RH). rewrite <- Ef in *.
    eexists (zlen rest), f'. split; [exact RH|]. apply RD. right. exact L.
  - destruct (alaw_file (W := W) B ch Hc conv back junk (nistUpdate (fm CAlaw)) (nistInit (fm CAlaw)) nistFirst cap ops Hj ltac:(unfold nistFirst; lia)
      (nist_keeps host rate ch _ _ _ (Hf _ (or_intror eq_refl)) Hr Hc Hc2 Hc Hs) _ (nist_front host rate ch _ _ _ (Hf _ (or_intror eq_refl)) Hr Hc Hc2 Hc Hs) Hsp Hok)
      as (st & f0 & R & Ef & FR & T0 & T1 & T2 & T3 & Fit & RD).
    exists st. split; [exact R|]. destruct (Fin CAlaw (or_intror eq_refl) f0 (ws_track st) FR T1) as (rest & f' & Eb & L & RH). rewrite <- Ef in *.
    eexists (zlen rest), f'. split; [exact RH|]. apply RD. right. exact L.
Qed.
Print Assumptions C34_nist_g711_roundtrip_partial.

Example C34_example :
  spaced false ([Write [[1; 2]; [3; -4]]; Sync; Write [[-32768; 32767]]] ++ [Sync]) /\
  Forall (fun v => frameOf 2 (fits true 2) v) (written [Write [[1; 2]; [3; -4]]; Sync; Write [[-32768; 32767]]]) /\
  (forall B : Build, exists st f', let fm := mkFmt 44100 TwosComp 16 2 BigEndian CNone 1 4 in
    wrun (pcmW BigEndian 2 2) (fun x => x) [0; 0] true (nistUpdate fm)
      (openWrite (pcmW BigEndian 2 2) (nistInit fm) nistFirst 1024 tt)
      [Write [[1; 2]; [3; -4]]; Sync; Write [[-32768; 32767]]; Sync] = Ok st /\
    zskipn 1024 (fbytes (ws_file st)) = [0;1;0;2; 0;3;255;252; 128;0;127;255] /\
    nistRead LittleEndian (mkFile (fbytes (ws_file st)) 0) = Ok (Some (mkParsed fm 1024 12 3, f'))).
Proof.
  split; [cbn; auto|]. split; [unfold fits; repeat constructor; vm_compute; congruence|].
  intros B. do 2 eexists. cbv zeta. split; [vm_compute; reflexivity|]. split; vm_compute; reflexivity.
Qed.

(** The setup accepts PCM of 1 to 8 bits; the file written from it opens as 16-bit u-law audio. *)
Theorem C34_nist_8bit_refuted :
  forall (host o : order) w rest, 1 <= w <= 8 ->
    let fm := mkFmt 8000 TwosComp w 1 o CNone 1 1 in
    exists f', nistRead host (mkFile (nistHeader fm 5 ++ rest) 0) = Ok (Some (mkParsed (mkFmt 8000 TwosComp 16 1 host CUlaw 1 1) 1024 (zlen rest) 5, f')).
Proof.
  intros host o w rest Hw fm.
  assert (H : exists h, nistHeader fm 5 = h /\ zlen h = 1024 /\ teq (zfirstn 16 h) nistMagic = true /\
     nistParse host (cstr h) = Ok (Some (mkFmt 8000 TwosComp 16 1 host CUlaw 1 1, 5))).
  { eexists. split; [reflexivity|]. unfold fm. assert (C : w = 1 \/ w = 2 \/ w = 3 \/ w = 4 \/ w = 5 \/ w = 6 \/ w = 7 \/ w = 8) by lia.
    decompose [or] C; subst w; (split; [vm_compute; reflexivity|]; split; [vm_compute; reflexivity|]); vm_compute; reflexivity. }
  destruct H as (h & -> & L & M & P). set (b := h ++ rest). assert (H : zskipn 0 b = h ++ rest) by (rewrite zskipn_0 by lia; reflexivity).
  assert (Lb : zlen b - 1024 = zlen rest) by (unfold b; rewrite zlen_app; lia).
  unfold nistRead. rewrite st_seek. cbn [fbytes]. replace (hread 1024) with (hread (zlen h)) by now rewrite L. hstep H. rewrite L.
  change (1024 =? 1024) with true. rewrite M. cbn [negb]. unfold hlift at 1, hbind at 1. rewrite P. cbn [rbind].
  unfold hlength, hbind, hret, flength, rbind. cbv beta iota. cbn [fbytes]. rewrite Lb. eexists. reflexivity.
Qed.
Print Assumptions C34_nist_8bit_refuted.

(** Frame counts of 2^31 and more do not survive the conversion to int. *)
Theorem C34_nist_frame_count_refuted :
  forall host rest, let fm := mkFmt 8000 TwosComp 16 1 LittleEndian CNone 1 2 in
    exists f', nistRead host (mkFile (nistHeader fm 4294967297 ++ rest) 0) = Ok (Some (mkParsed fm 1024 (zlen rest) 1, f')).
Proof.
  intros host rest fm. assert (E : nistHeader fm 4294967297 = nistHeader fm 1) by reflexivity. rewrite E.
  apply (nist_read host 8000 1 fm 1 rest (NF_pcm host 8000 1 fm 16 LittleEndian eq_refl ltac:(lia))); change (2 ^ 31) with 2147483648; lia.
Qed.
Print Assumptions C34_nist_frame_count_refuted.

(** ** C49: a G.711 setup of 8 bits or fewer is accepted and trips the header writer's assertion. *)
Theorem C49_nist_g711_width_refuted :
  forall c rate ch o, c = CUlaw \/ c = CAlaw -> nistWritable (mkFmt rate TwosComp 8 ch o c 1 ch) = false.
Proof. intros c rate ch o [-> | ->]; reflexivity. Qed.
Print Assumptions C49_nist_g711_width_refuted.

(** ** C57 *)
Definition nistFileOf (t : list Z) : file := mkFile (nistMagic ++ t ++ zrepeat 32 (1008 - zlen t)) 0.
(** A key without its number leaves the variable uninitialised; it is used all the same. *)
Theorem C57_nist_number_missing_refuted :
  forall host, nistRead host (nistFileOf (txt "channel_count -i x")) = UB.
Proof. intros host. vm_compute. reflexivity. Qed.
Print Assumptions C57_nist_number_missing_refuted.
(** A number that does not fit an int: the conversion is undefined. *)
Theorem C57_nist_number_overflow_refuted :
  forall host, nistRead host (nistFileOf (txt "channel_count -i 99999999999")) = UB.
Proof. intros host. vm_compute. reflexivity. Qed.
Print Assumptions C57_nist_number_overflow_refuted.
(** u-law without a byte format: the byte order of the track's format is never set, and is used when the track is opened. *)
Theorem C57_nist_byte_order_refuted :
  forall host, nistRead host (nistFileOf (txt "channel_count -i 1" ++ line (txt "sample_n_bytes -i 1") ++ line (txt "sample_rate -i 8000") ++ line (txt "sample_count -i 0"))) = UB.
Proof. intros host. vm_compute. reflexivity. Qed.
Print Assumptions C57_nist_byte_order_refuted.
