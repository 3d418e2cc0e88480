(** * The elements of an Apple Lossless packet: what the encoder writes for one channel or two is what the decoder reads *)
From Verif Require Import Prelude PreludeFacts MetadataProofs ALACBits ALACGolomb ALACGolombProofs ALACPredict ALACCodec ALACCodecProofs.

Lemma column_spec k : forall xs i s ls, column k xs i s = Ok ls -> 0 <= i -> 0 <= s ->
  length ls = k /\ (forall P, Forall P xs -> Forall P ls) /\ (forall j, 0 <= j < Z.of_nat k -> nth (Z.to_nat j) ls 0 = nth (Z.to_nat (i + j * s)) xs 0).
Proof.
  induction k as [|k IH]; intros xs i s ls H Hi Hs; cbn [column] in H.
  - injection H as <-. split; [reflexivity|]. split; [intros; constructor|]. intros j Hj. lia.
  - apply rbind_Ok in H. destruct H as (x & Hx & H). apply rbind_Ok in H. destruct H as (r & Hr & H). injection H as <-.
    apply IH in Hr; [|lia|lia]. destruct Hr as (Lr & Fr & Nr). split; [cbn [length]; lia|]. split.
    + intros P HP. constructor; [exact (aget_Forall P xs i x HP Hx)|exact (Fr P HP)].
    + intros j Hj. destruct (Z.eq_dec j 0) as [->|N].
      * cbn [Z.to_nat nth]. replace (i + 0 * s) with i by lia. unfold aget in Hx. replace (i <? 0) with false in Hx by lia.
        destruct (nth_error xs (Z.to_nat i)) as [y|] eqn:E; [|discriminate]. injection Hx as <-. symmetry. apply nth_error_nth. exact E.
      * replace (Z.to_nat j) with (S (Z.to_nat (j - 1))) by lia. cbn [nth]. rewrite Nr by lia. f_equal. f_equal. lia.
Qed.
Lemma column_total k : forall xs i s, 0 <= i -> 0 <= s -> (k = O \/ i + (Z.of_nat k - 1) * s < zlen xs) -> exists ls, column k xs i s = Ok ls.
Proof.
  induction k as [|k IH]; intros xs i s Hi Hs Hl; cbn [column]; [eauto|].
  destruct Hl as [Hl|Hl]; [discriminate|]. destruct (aget_some xs i) as [x ->]; [nia|]. cbn [rbind].
  destruct (IH xs (i + s) s) as [r ->]; [lia|lia|destruct k; [left; reflexivity|right; nia]|]. cbn [rbind]. eauto.
Qed.

Lemma headFields_bits fr n flags : fbits (headFields fr n flags) = 16 + (if n =? fr then 0 else 32).
Proof. unfold headFields. rewrite fbits_app. destruct (n =? fr); reflexivity. Qed.
Lemma headFields_widths fr n flags : widthsOk (headFields fr n flags).
Proof. unfold headFields. apply widthsOk_app; [repeat constructor; cbn [fst]; lia|]. destruct (n =? fr); repeat constructor; cbn [fst]; lia. Qed.
Lemma paramFields_bits num cs : fbits (paramFields num cs) = 16 + 16 * zlen cs.
Proof. unfold paramFields. rewrite fbits_app, (fbits_map _ 16) by reflexivity. reflexivity. Qed.
Lemma paramFields_widths num cs : widthsOk (paramFields num cs).
Proof. unfold paramFields. apply widthsOk_app; [repeat constructor; cbn [fst]; lia|]. apply (widths_map _ 16); [reflexivity|lia]. Qed.
Lemma shift_facts depth : depthOk depth -> 0 <= shiftOf depth <= 16 /\ shiftOf depth = 8 * (shiftOf depth / 8) /\
  (Z.shiftl (shiftOf depth / 8) 1 = 0 \/ Z.shiftl (shiftOf depth / 8) 1 = 1 \/ Z.shiftl (shiftOf depth / 8) 1 = 2 \/ Z.shiftl (shiftOf depth / 8) 1 = 4) /\
  Z.shiftl (shiftOf depth / 8) 1 / 2 = shiftOf depth / 8 /\ Z.shiftl (shiftOf depth / 8) 1 <> 1.
Proof. intros [->|[->|[->| ->]]]; vm_compute; intuition discriminate. Qed.
Lemma map_const0 {A B} (f : A -> B) (l : list A) : map (fun _ : B => 0) (map f l) = map (fun _ => 0) l.
Proof. rewrite map_map. reflexivity. Qed.
Lemma combine_maps {A B C} (f : A -> B) (g : A -> C) l : combine (map f l) (map g l) = map (fun x => (f x, g x)) l.
Proof. induction l as [|x l IH]; [reflexivity|]. cbn [map combine]. rewrite IH. reflexivity. Qed.

(** ** One channel *)
Definition monoDecodes {W : Arith} (fr depth n : Z) (ls : list Z) (p : Z) (F : fields) : Prop :=
  forall q size inst m c channels out l, bytes_ok q = true -> size + 3 <= zlen q -> p + fbits F <= 8 * size -> holds q (p - 4) ((4, inst) :: F ++ l) -> (n = fr -> m = n) ->
    decodeMono (cookie fr depth) q size (p - 4) m c channels out =
    (do out <- storeColumn out c channels (map (kept depth) ls); Ok (Some (p + fbits F, n, out))).

Lemma monoEscape_inv {W : Arith} fr depth b p ls b' p' : depthOk depth -> 8 < fr < 2 ^ 24 -> zlen ls <= fr -> Forall (inRange (container depth)) ls -> bytes_ok b = true -> 4 <= p ->
  monoEscape fr depth b p ls = Ok (b', p') ->
  exists F, wrote b p F b' /\ fieldsOk F /\ p' = p + fbits F /\ fbits F = escapeBits fr depth (zlen ls) 1 /\ monoDecodes fr depth (zlen ls) ls p F.
Proof.
  intros Hd Hf Hn Fl Hb Hp H. unfold monoEscape in H. set (F := headFields fr (zlen ls) 1 ++ map (fun x => (depth, inputOf depth x)) ls) in *.
  assert (Wf : widthsOk F) by (apply widthsOk_app; [apply headFields_widths|apply (widths_map _ depth); [reflexivity|unfold depthOk in Hd; lia]]).
  assert (Bf : fbits F = fbits (headFields fr (zlen ls) 1) + depth * zlen ls) by (unfold F; rewrite fbits_app, (fbits_map _ depth) by reflexivity; reflexivity).
  apply rbind_Ok in H. destruct H as (b1 & H & E). assert (Eb : b1 = b') by congruence. assert (Ep : p' = p + fbits F) by congruence. subst b1 p'. clear E.
  apply bbWrites_inv in H; [|exact Wf|exact Hb|lia]. exists F. split; [exact H|]. split; [apply widthsOk_fields; exact Wf|]. split; [reflexivity|].
  split; [rewrite Bf, headFields_bits; unfold escapeBits; destruct (zlen ls =? fr); lia|].
  intros q size inst m c channels out l Hq Hs Hl Hh Hm. pose proof (zlen_nonneg ls) as Ln. assert (D16 : 16 <= depth) by (unfold depthOk in Hd; lia).
  unfold F in Hh. rewrite <- app_assoc in Hh. unfold decodeMono.
  destruct (readHead_ok q size Hq Hs (p - 4) inst fr (zlen ls) m 1 (map (fun x => (depth, inputOf depth x)) ls ++ l)) as [pa Eh]; [change (2 ^ 24) with 16777216 in Hf; change (2 ^ 32) with 4294967296; lia|exact Hm|auto|lia|rewrite headFields_bits; rewrite Bf, headFields_bits in Hl; nia|exact Hh|].
  rewrite Eh. cbn [rbind h_samples h_bytes h_escape h_pos]. change (1 =? 1) with true. change (1 / 2) with 0. cbv iota. cbn [cookie g_depth g_frame].
  replace (depth - 0 * 8) with depth by lia. replace ((depth <? 1) || (fr <? zlen ls)) with false by lia.
  destruct Hh as [_ Hh]. apply holds_app in Hh. destruct Hh as [_ Hh].
  replace (map (fun x => (depth, inputOf depth x)) ls) with (map (fun x => (depth, x)) (map (inputOf depth) ls)) in Hh by (rewrite map_map; reflexivity).
  replace (Z.to_nat (zlen ls)) with (length (map (inputOf depth) ls)) by (rewrite map_length; unfold zlen; lia).
  assert (Lm : zlen (map (inputOf depth) ls) = zlen ls) by (unfold zlen; rewrite map_length; reflexivity).
  rewrite (readRaws_ok q size Hq Hs depth _ (p - 4 + 4 + fbits (headFields fr (zlen ls) 1)) l Hd) with (4 := Hh).
  2:{ clear - Fl Hd. induction Fl as [|x l Hx Fl IH]; [constructor|]. constructor; [apply inputOf_range; assumption|exact IH]. }
  2:{ rewrite headFields_bits. destruct (zlen ls =? fr); lia. }
  2:{ rewrite Lm. lia. }
  cbn [rbind]. rewrite map_const0, combine_maps, map_map. cbn [fst snd].
  replace (map (fun x => outputOf depth 0 (inputOf depth x) 0) ls) with (map (kept depth) ls).
  2:{ clear - Fl Hd. induction Fl as [|x l Hx Fl IH]; [reflexivity|]. cbn [map]. rewrite output_raw by assumption. f_equal. exact IH. }
  replace (p - 4 + 4 + fbits (headFields fr (zlen ls) 1) + depth * zlen ls) with (p + fbits F) by lia. reflexivity.
Qed.

Lemma encodeMono_inv {W : Arith} fr depth ch b p xs i stride n b' p' : depthOk depth -> 8 < fr < 2 ^ 24 -> 0 <= n <= fr -> choiceOk ch ->
  Forall (inRange (container depth)) xs -> bytes_ok b = true -> 4 <= p -> 0 <= i -> 0 <= stride ->
  encodeMono fr depth ch b p xs i stride n = Ok (b', p') ->
  exists ls F, column (Z.to_nat n) xs i stride = Ok ls /\ wrote b p F b' /\ fieldsOk F /\ p' = p + fbits F /\ fbits F <= escapeBits fr depth n 1 /\ monoDecodes fr depth n ls p F.
Proof.
  intros Hd Hf Hn Hc Fx Hb Hp Hi Hst H. unfold encodeMono in H. apply rbind_Ok in H. destruct H as (ls & Hls & H).
  destruct (column_spec _ _ _ _ _ Hls Hi Hst) as (Ll & Fl & _). specialize (Fl _ Fx). assert (Zl : zlen ls = n) by (unfold zlen; lia).
  destruct (c_escape ch).
  { apply monoEscape_inv in H; [|assumption|assumption|lia|assumption|assumption|assumption]. rewrite Zl in H. destruct H as (F & A1 & A2 & A3 & A4 & A5).
    exists ls, F. split; [exact Hls|]. split; [exact A1|]. split; [exact A2|]. split; [exact A3|]. split; [lia|exact A5]. }
  destruct Hc as (_ & Hnu & _ & Lc & _ & Fc & _).
  set (L := headFields fr n (Z.shiftl (shiftOf depth / 8) 1) ++ [(16, 0)] ++ paramFields (c_numU ch) (c_coefsU ch) ++ (if shiftOf depth =? 0 then [] else map (fun x => (shiftOf depth, lowOf depth x)) ls)) in *.
  destruct (shift_facts depth Hd) as (S1 & S2 & S3 & S4 & S5). pose proof (monoBits_range depth Hd) as MB.
  assert (WL : widthsOk L).
  { apply widthsOk_app; [apply headFields_widths|]. apply widthsOk_app; [repeat constructor; cbn [fst]; lia|]. apply widthsOk_app; [apply paramFields_widths|].
    destruct (shiftOf depth =? 0); [constructor|]. apply (widths_map _ (shiftOf depth)); [reflexivity|lia]. }
  assert (BL : fbits L = fbits (headFields fr n (Z.shiftl (shiftOf depth / 8) 1)) + 16 + fbits (paramFields (c_numU ch) (c_coefsU ch)) + shiftOf depth * n).
  { unfold L. rewrite !fbits_app. change (fbits [(16, 0)]) with 16. destruct (Z.eqb_spec (shiftOf depth) 0) as [E|E]; [change (fbits []) with 0; lia|].
    rewrite (fbits_map _ (shiftOf depth)) by reflexivity. rewrite Zl. lia. }
  apply rbind_Ok in H. destruct H as (b1 & H1 & H). apply bbWrites_inv in H1; [|exact WL|exact Hb|lia].
  apply rbind_Ok in H. destruct H as (eu & Hpc & H). apply rbind_Ok in H. destruct H as ([b2 p2] & H2 & H). cbn [fst snd] in H.
  pose proof (fbits_nonneg L (widthsOk_fields L WL)) as NL.
  assert (Fh : Forall (inRange (monoBits depth)) (map (highOf depth) ls)).
  { clear - Fl Hd. induction Fl as [|x l Hx Fl IH]; [constructor|]. constructor; [apply highOf_range; assumption|exact IH]. }
  assert (Lh : zlen (map (highOf depth) ls) = n) by (unfold zlen in *; rewrite map_length; exact Zl).
  destruct (pc_block_undo fr fr (c_numU ch) (monoBits depth) 9 (c_coefsU ch) (map (highOf depth) ls) eu) as (Hu & Fe & Le); [lia|lia|exact Hnu|exact Fh|lia|lia|exact Hpc|].
  change (depth - shiftOf depth) with (monoBits depth) in *.
  apply dyn_comp_wrote in H2; [|lia|exact Fe|exact (wrote_bytes _ _ _ _ H1)|lia]. destruct H2 as [H2 ->].
  pose proof (golombFields_ok (monoBits depth) eu ltac:(lia) Fe) as [OG BG].
  set (G := golombFields (monoBits depth) eu) in *.
  assert (W2 : wrote b p (L ++ G) b2) by (eapply wrote_app; [apply widthsOk_fields; exact WL|lia|exact H1|exact H2]).
  destruct (Z.leb_spec (escapeBits fr depth n 1) (p + fbits L + fbits G - p)) as [Big|Small].
  { apply monoEscape_inv in H; [|assumption|assumption|lia|assumption|exact (wrote_bytes _ _ _ _ W2)|assumption]. rewrite Zl in H. destruct H as (F & A1 & A2 & A3 & A4 & A5).
    exists ls, F. split; [exact Hls|]. split; [exact (wrote_over _ _ _ _ _ _ W2 A1)|]. split; [exact A2|]. split; [exact A3|]. split; [lia|exact A5]. }
  assert (Eb : b2 = b') by congruence. assert (Ep : p' = p + fbits L + fbits G) by congruence. clear H. subst b2 p'.
  exists ls, (L ++ G). split; [exact Hls|]. split; [exact W2|]. split; [apply fieldsOk_app; split; [apply widthsOk_fields; exact WL|exact OG]|]. rewrite fbits_app. split; [lia|]. split; [lia|].
  intros q size inst m c channels out l Hq Hs Hl Hh Hm. rewrite fbits_app in Hl.
  assert (HS : holds q (p - 4) ((4, inst) :: headFields fr n (Z.shiftl (shiftOf depth / 8) 1) ++ ([(16, 0)] ++ paramFields (c_numU ch) (c_coefsU ch) ++ (if shiftOf depth =? 0 then [] else map (fun x => (shiftOf depth, lowOf depth x)) ls) ++ G ++ l))).
  { unfold L in Hh. rewrite <- !app_assoc in Hh. exact Hh. }
  clear Hh. unfold decodeMono.
  pose proof (fbits_nonneg _ (widthsOk_fields _ (headFields_widths fr n (Z.shiftl (shiftOf depth / 8) 1)))) as NH.
  pose proof (fbits_nonneg _ (widthsOk_fields _ (paramFields_widths (c_numU ch) (c_coefsU ch)))) as NP.
  assert (NS : 0 <= shiftOf depth * n) by nia.
  destruct (readHead_ok q size Hq Hs (p - 4) inst fr n m (Z.shiftl (shiftOf depth / 8) 1) ([(16, 0)] ++ paramFields (c_numU ch) (c_coefsU ch) ++ (if shiftOf depth =? 0 then [] else map (fun x => (shiftOf depth, lowOf depth x)) ls) ++ G ++ l)) as [pa Eh]; [change (2 ^ 24) with 16777216 in Hf; change (2 ^ 32) with 4294967296; lia|exact Hm|exact S3|lia|lia|exact HS|].
  rewrite Eh. clear Eh. cbn [rbind h_samples h_bytes h_escape h_pos]. rewrite S4. replace (Z.shiftl (shiftOf depth / 8) 1 =? 1) with false by lia. cbv iota. cbn [cookie g_depth g_frame].
  replace (depth - shiftOf depth / 8 * 8) with (monoBits depth) by (unfold monoBits; lia).
  destruct HS as [_ HS]. apply holds_app in HS. destruct HS as [_ HS]. set (P := p - 4 + 4 + fbits (headFields fr n (Z.shiftl (shiftOf depth / 8) 1))) in *.
  assert (EP : P = p + fbits (headFields fr n (Z.shiftl (shiftOf depth / 8) 1))) by (unfold P; lia). clearbody P.
  cbn [app] in HS. apply (holds_cut q P 8 8) in HS; [|lia|lia]. rewrite (rd q size Hq Hs P 8 _ _ HS) by lia. cbn [rbind]. destruct HS as [_ HS].
  rewrite (rd q size Hq Hs (P + 8) 8 _ _ HS) by lia. cbn [rbind]. destruct HS as [_ HS]. replace (P + 8 + 8) with (P + 16) in HS by lia.
  rewrite (readParams_ok q size Hq Hs (P + 16) (c_numU ch) (c_coefsU ch) _ Hnu Lc Fc) with (3 := HS) by lia. cbn [rbind q_pos].
  apply holds_app in HS. destruct HS as [_ HS]. set (Q := P + 16 + fbits (paramFields (c_numU ch) (c_coefsU ch))) in *.
  assert (EQ : Q + shiftOf depth * n = p + fbits L) by (unfold Q; lia). assert (0 <= Q) by (unfold Q; lia). clearbody Q.
  assert (Ead : (if shiftOf depth / 8 =? 0 then Q else Q + u32 (shiftOf depth / 8 * 8 * n)) = p + fbits L).
  { replace (shiftOf depth / 8 * 8) with (shiftOf depth) by lia. destruct (Z.eqb_spec (shiftOf depth / 8) 0) as [E|E]; [lia|]. unfold u32. rewrite uN_small; [lia|]. change (2 ^ 24) with 16777216 in Hf. change (2 ^ 32) with 4294967296. nia. }
  rewrite Ead. assert (HG : holds q (p + fbits L) (G ++ l) /\ holds q Q ((if shiftOf depth =? 0 then [] else map (fun x => (shiftOf depth, lowOf depth x)) ls) ++ G ++ l)).
  { split; [|exact HS]. apply holds_app in HS. destruct HS as [_ HS]. destruct (Z.eqb_spec (shiftOf depth) 0) as [E|E].
    - change (fbits []) with 0 in HS. replace (p + fbits L) with (Q + 0) by lia. exact HS.
    - rewrite (fbits_map _ (shiftOf depth)) in HS by reflexivity. rewrite Zl in HS. rewrite EQ in HS. exact HS. }
  destruct HG as [HG HSh].
  rewrite (readResidual_ok q size Hq Hs fr depth (monoBits depth) (p + fbits L) n (c_numU ch) (c_coefsU ch) (map (highOf depth) ls) eu _ l) by (try assumption; try lia; fold G; lia).
  cbn [rbind]. assert (ELow : (if shiftOf depth / 8 =? 0 then Ok (map (fun _ => 0) (map (highOf depth) ls)) else readMany (Z.to_nat n) q Q (shiftOf depth / 8 * 8)) = Ok (map (lowOf depth) ls)).
  { replace (shiftOf depth / 8 * 8) with (shiftOf depth) by lia. destruct (Z.eqb_spec (shiftOf depth / 8) 0) as [E|E].
    - rewrite map_const0. f_equal. apply map_ext. intros x. pose proof (lowOf_range depth x Hd) as R. replace (shiftOf depth) with 0 in R by lia. change (2 ^ 0) with 1 in R. lia.
    - replace (shiftOf depth =? 0) with false in HSh by lia. replace (Z.to_nat n) with (length (map (lowOf depth) ls)) by (rewrite map_length; exact Ll).
      replace (map (fun x => (shiftOf depth, lowOf depth x)) ls) with (map (fun c => (shiftOf depth, c)) (map (lowOf depth) ls)) in HSh by (rewrite map_map; reflexivity).
      rewrite (readMany_ok q size Hq Hs (shiftOf depth) (map (lowOf depth) ls) Q (G ++ l)) by (try assumption; try lia; unfold zlen in *; rewrite map_length; lia).
      f_equal. rewrite map_map. apply map_ext. intros x. apply Z.mod_small. apply lowOf_range. exact Hd. }
  rewrite ELow. cbn [rbind]. replace (shiftOf depth / 8 * 8) with (shiftOf depth) by lia. rewrite combine_maps, map_map. cbn [fst snd].
  replace (map (fun x => outputOf depth (shiftOf depth) (highOf depth x) (lowOf depth x)) ls) with (map (kept depth) ls).
  2:{ clear - Fl Hd. induction Fl as [|x l Hx Fl IH]; [reflexivity|]. cbn [map]. rewrite output_back by assumption. f_equal. exact IH. }
  rewrite fbits_app, Z.add_assoc. reflexivity.
Qed.

(** ** Two channels *)
Definition weave (l : list (Z * Z)) : list Z := concat (map (fun x => [fst x; snd x]) l).
Lemma weave_cons x l : weave (x :: l) = fst x :: snd x :: weave l. Proof. reflexivity. Qed.
Lemma unzip2_weave l : unzip2 (weave l) = l.
Proof. induction l as [|[x y] l IH]; [reflexivity|]. rewrite weave_cons. cbn [unzip2 fst snd]. rewrite IH. reflexivity. Qed.
Lemma zlen_weave l : zlen (weave l) = 2 * zlen l.
Proof. induction l as [|x l IH]; [reflexivity|]. rewrite weave_cons, !zlen_cons, IH. lia. Qed.
Lemma weave_Forall (P : Z -> Prop) l : Forall (fun x => P (fst x) /\ P (snd x)) l -> Forall P (weave l).
Proof. intros H. induction H as [|x l [A B] H IH]; [constructor|]. rewrite weave_cons. constructor; [exact A|]. constructor; [exact B|exact IH]. Qed.
Lemma map_fst_combine {A B} (l : list A) : forall (r : list B), length l = length r -> map fst (combine l r) = l.
Proof. induction l as [|x l IH]; intros [|y r] H; try discriminate; [reflexivity|]. cbn [combine map fst]. rewrite IH by (cbn [length] in H; lia). reflexivity. Qed.
Lemma map_snd_combine {A B} (l : list A) : forall (r : list B), length l = length r -> map snd (combine l r) = r.
Proof. induction l as [|x l IH]; intros [|y r] H; try discriminate; [reflexivity|]. cbn [combine map snd]. rewrite IH by (cbn [length] in H; lia). reflexivity. Qed.
Lemma combine_split_eq {A B} (l : list (A * B)) : combine (map fst l) (map snd l) = l.
Proof. induction l as [|[x y] l IH]; [reflexivity|]. cbn [map combine fst snd]. rewrite IH. reflexivity. Qed.
Lemma combine_Forall {A B} (P : A -> Prop) (Q : B -> Prop) l : forall r, Forall P l -> Forall Q r -> Forall (fun x => P (fst x) /\ Q (snd x)) (combine l r).
Proof. induction l as [|x l IH]; intros [|y r] Hl Hr; cbn [combine]; try constructor; inversion Hl; inversion Hr; subst; cbn [fst snd]; [split; assumption|]. apply IH; assumption. Qed.
Lemma rmapM_same {A} (f : A -> res A) l : (forall x, f x = Ok x) -> rmapM f l = Ok l.
Proof. intros H. induction l as [|x l IH]; [reflexivity|]. cbn [rmapM]. rewrite H. cbn [rbind]. rewrite IH. reflexivity. Qed.

Definition stereoDecodes {W : Arith} (fr depth n : Z) (ls rs : list Z) (p : Z) (F : fields) : Prop :=
  forall q size inst m c channels out l, bytes_ok q = true -> size + 3 <= zlen q -> p + fbits F <= 8 * size -> holds q (p - 4) ((4, inst) :: F ++ l) -> (n = fr -> m = n) ->
    decodeStereo (cookie fr depth) q size (p - 4) m c channels out =
    (do out <- storeColumn out c channels (map (kept depth) ls); do out <- storeColumn out (c + 1) channels (map (kept depth) rs); Ok (Some (p + fbits F, n, out))).

Lemma concat_pairs {A} (f : A -> Z) (g : A -> Z) (w : Z) (l : list A) :
  concat (map (fun x => [(w, f x); (w, g x)]) l) = map (fun x => (w, x)) (weave (map (fun x => (f x, g x)) l)).
Proof. induction l as [|x l IH]; [reflexivity|]. cbn [map concat app]. rewrite weave_cons. cbn [map fst snd]. rewrite IH. reflexivity. Qed.

Lemma stereoEscape_inv {W : Arith} fr depth b p lrs b' p' : depthOk depth -> 8 < fr < 2 ^ 24 -> zlen lrs <= fr ->
  Forall (fun x => inRange (container depth) (fst x) /\ inRange (container depth) (snd x)) lrs -> bytes_ok b = true -> 4 <= p ->
  stereoEscape fr depth b p (map fst lrs) (map snd lrs) = Ok (b', p') ->
  exists F, wrote b p F b' /\ fieldsOk F /\ p' = p + fbits F /\ fbits F = escapeBits fr depth (zlen lrs) 2 /\ stereoDecodes fr depth (zlen lrs) (map fst lrs) (map snd lrs) p F.
Proof.
  intros Hd Hf Hn Fl Hb Hp H. unfold stereoEscape in H. rewrite combine_split_eq, concat_pairs in H.
  assert (Lm : zlen (map fst lrs) = zlen lrs) by (unfold zlen; rewrite map_length; reflexivity). rewrite Lm in H.
  set (ys := map (fun x => (inputOf depth (fst x), inputOf depth (snd x))) lrs) in *.
  assert (Ly : zlen ys = zlen lrs) by (unfold zlen, ys; rewrite map_length; reflexivity).
  set (F := headFields fr (zlen lrs) 1 ++ map (fun x => (depth, x)) (weave ys)) in *.
  assert (D16 : 16 <= depth <= 32) by (unfold depthOk in Hd; lia).
  assert (Wf : widthsOk F) by (apply widthsOk_app; [apply headFields_widths|apply (widths_map _ depth); [reflexivity|lia]]).
  assert (Bf : fbits F = fbits (headFields fr (zlen lrs) 1) + depth * (2 * zlen lrs)) by (unfold F; rewrite fbits_app, (fbits_map _ depth) by reflexivity; rewrite zlen_weave, Ly; reflexivity).
  apply rbind_Ok in H. destruct H as (b1 & H & E). assert (Eb : b1 = b') by congruence. assert (Ep : p' = p + fbits F) by congruence. subst b1 p'. clear E.
  apply bbWrites_inv in H; [|exact Wf|exact Hb|lia]. exists F. split; [exact H|]. split; [apply widthsOk_fields; exact Wf|]. split; [reflexivity|].
  split; [rewrite Bf, headFields_bits; unfold escapeBits; destruct (zlen lrs =? fr); lia|].
  intros q size inst m c channels out l Hq Hs Hl Hh Hm. pose proof (zlen_nonneg lrs) as Ln.
  unfold F in Hh. rewrite <- app_assoc in Hh. unfold decodeStereo.
  destruct (readHead_ok q size Hq Hs (p - 4) inst fr (zlen lrs) m 1 (map (fun x => (depth, x)) (weave ys) ++ l)) as [pa Eh];
    [change (2 ^ 24) with 16777216 in Hf; change (2 ^ 32) with 4294967296; lia|exact Hm|auto|lia|rewrite headFields_bits; rewrite Bf, headFields_bits in Hl; nia|exact Hh|].
  rewrite Eh. cbn [rbind h_samples h_bytes h_escape h_pos]. change (1 =? 1) with true. cbv iota. cbn [cookie g_depth g_frame].
  replace ((depth <? 1) || (fr <? zlen lrs)) with false by lia.
  destruct Hh as [_ Hh]. apply holds_app in Hh. destruct Hh as [_ Hh].
  replace (Z.to_nat (2 * zlen lrs)) with (length (weave ys)) by (pose proof (zlen_weave ys) as E; unfold zlen in *; lia).
  assert (Fy : Forall (inRange depth) (weave ys)).
  { apply weave_Forall. unfold ys. clear - Fl Hd. induction Fl as [|x l [A B] Fl IH]; [constructor|]. constructor; [cbn [fst snd]; split; apply inputOf_range; assumption|exact IH]. }
  rewrite (readRaws_ok q size Hq Hs depth (weave ys) (p - 4 + 4 + fbits (headFields fr (zlen lrs) 1)) l Hd Fy) with (3 := Hh).
  2:{ rewrite headFields_bits. destruct (zlen lrs =? fr); lia. }
  2:{ rewrite zlen_weave, Ly. lia. }
  cbn [rbind]. rewrite unzip2_weave. rewrite (rmapM_same (unmixOne 0 0)) by (intros [u v]; reflexivity). cbn [rbind].
  assert (K : combine ys (map (fun _ => (0, 0)) ys) = map (fun x => ((inputOf depth (fst x), inputOf depth (snd x)), (0, 0))) lrs).
  { unfold ys. rewrite map_map, combine_maps. reflexivity. }
  rewrite K, !map_map. cbn [fst snd].
  replace (map (fun x => outputOf depth 0 (inputOf depth (fst x)) 0) lrs) with (map (fun x => kept depth (fst x)) lrs).
  2:{ clear - Fl Hd. induction Fl as [|x l [A B] Fl IH]; [reflexivity|]. cbn [map]. rewrite output_raw by assumption. f_equal. exact IH. }
  replace (map (fun x => outputOf depth 0 (inputOf depth (snd x)) 0) lrs) with (map (fun x => kept depth (snd x)) lrs).
  2:{ clear - Fl Hd. induction Fl as [|x l [A B] Fl IH]; [reflexivity|]. cbn [map]. rewrite output_raw by assumption. f_equal. exact IH. }
  replace (p - 4 + 4 + fbits (headFields fr (zlen lrs) 1) + depth * (2 * zlen lrs)) with (p + fbits F) by lia. reflexivity.
Qed.

Lemma mix_list {W : Arith} bits m hs uv : 1 <= bits <= 20 -> 0 <= m <= 4 -> Forall (fun x => inRange bits (fst x) /\ inRange bits (snd x)) hs ->
  rmapM (mixOne 2 m) hs = Ok uv ->
  Forall (inRange (bits + 1)) (map fst uv) /\ Forall (inRange (bits + 1)) (map snd uv) /\ zlen uv = zlen hs /\ rmapM (unmixOne 2 m) uv = Ok hs.
Proof.
  intros Hb Hm Fh. revert uv. induction Fh as [|[l r] hs [Hl Hr] Fh IH]; intros uv H; cbn [rmapM] in H.
  - injection H as <-. repeat split; constructor.
  - cbn [fst snd] in Hl, Hr. destruct (mix_back bits m l r Hb Hm Hl Hr) as (u & v & E1 & Ru & Rv & E2). rewrite E1 in H. cbn [rbind] in H.
    apply rbind_Ok in H. destruct H as (t & Ht & H). injection H as <-. destruct (IH t Ht) as (A & B & C & D). cbn [map fst snd]. rewrite !zlen_cons.
    split; [constructor; assumption|]. split; [constructor; assumption|]. split; [lia|]. cbn [rmapM]. rewrite E2. cbn [rbind]. rewrite D. reflexivity.
Qed.
Lemma mix_total {W : Arith} bits m hs : 1 <= bits <= 20 -> 0 <= m <= 4 -> Forall (fun x => inRange bits (fst x) /\ inRange bits (snd x)) hs -> exists uv, rmapM (mixOne 2 m) hs = Ok uv.
Proof.
  intros Hb Hm Fh. induction Fh as [|[l r] hs [Hl Hr] Fh [t Ht]]; [eexists; reflexivity|]. cbn [rmapM fst snd] in *.
  destruct (mix_back bits m l r Hb Hm Hl Hr) as (u & v & E1 & _). rewrite E1. cbn [rbind]. rewrite Ht. cbn [rbind]. eauto.
Qed.

(** The two shifted-off parts of a frame are written together and read one by one. *)
Lemma holds_pairs q w l : forall p rest, 0 <= w -> Forall (fun x => 0 <= fst x < 2 ^ w /\ 0 <= snd x < 2 ^ w) l ->
  holds q p (map (fun x => (w * 2, Z.lor (Z.shiftl (fst x) w) (snd x))) l ++ rest) -> holds q p (map (fun x => (w, x)) (weave l) ++ rest).
Proof.
  induction l as [|[x y] l IH]; intros p rest Hw Fl H; [exact H|]. inversion Fl as [|x0 l0 [Hx Hy] Fl']; subst. cbn [fst snd] in *. rewrite weave_cons. cbn [map app fst snd] in *.
  replace (w * 2) with (w + w) in H by lia. apply holds_cut in H; [|lia|lia]. rewrite lor_cat in H by assumption. destruct H as (A & B & C).
  assert (P : 0 < 2 ^ w) by (apply Z.pow_pos_nonneg; lia).
  assert (E1 : (x * 2 ^ w + y) / 2 ^ w = x). { rewrite Z.div_add_l by lia. rewrite (Z.div_small y) by lia. lia. }
  assert (E2 : (x * 2 ^ w + y) mod 2 ^ w = y mod 2 ^ w). { rewrite Z.add_comm. apply Z.mod_add. lia. }
  cbn [holds]. split; [rewrite A, E1; reflexivity|]. split; [rewrite B, E2; reflexivity|]. apply IH; [exact Hw|exact Fl'|]. replace (w * 2) with (w + w) by lia. exact C.
Qed.

Lemma encodeStereo_inv {W : Arith} fr depth ch b p xs i stride n b' p' : depthOk depth -> 8 < fr < 2 ^ 24 -> 0 <= n <= fr -> choiceOk ch ->
  Forall (inRange (container depth)) xs -> bytes_ok b = true -> 4 <= p -> 0 <= i -> 0 <= stride ->
  encodeStereo fr depth ch b p xs i stride n = Ok (b', p') ->
  exists ls rs F, column (Z.to_nat n) xs i stride = Ok ls /\ column (Z.to_nat n) xs (i + 1) stride = Ok rs /\
    wrote b p F b' /\ fieldsOk F /\ p' = p + fbits F /\ fbits F <= escapeBits fr depth n 2 /\ stereoDecodes fr depth n ls rs p F.
Proof.
  intros Hd Hf Hn Hc Fx Hb Hp Hi Hst H. unfold encodeStereo in H. apply rbind_Ok in H. destruct H as (ls & Hls & H). apply rbind_Ok in H. destruct H as (rs & Hrs & H).
  destruct (column_spec _ _ _ _ _ Hls Hi Hst) as (Ll & Fl & _). specialize (Fl _ Fx).
  destruct (column_spec _ _ _ _ _ Hrs ltac:(lia) Hst) as (Lr & Fr & _). specialize (Fr _ Fx).
  pose proof (combine_Forall _ _ _ _ Fl Fr) as FF. assert (E1 : map fst (combine ls rs) = ls) by (apply map_fst_combine; lia). assert (E2 : map snd (combine ls rs) = rs) by (apply map_snd_combine; lia).
  set (lrs := combine ls rs) in *. assert (Zl : zlen lrs = n) by (rewrite <- E1, map_length in Ll; unfold zlen; lia). clearbody lrs. subst ls rs.
  exists (map fst lrs), (map snd lrs).
  destruct (c_escape ch).
  { apply stereoEscape_inv in H; [|assumption|assumption|lia|assumption|assumption|assumption]. rewrite Zl in H. destruct H as (F & A1 & A2 & A3 & A4 & A5).
    exists F. split; [exact Hls|]. split; [exact Hrs|]. split; [exact A1|]. split; [exact A2|]. split; [exact A3|]. split; [lia|exact A5]. }
  destruct Hc as (Hres & Hnu & Hnv & Lcu & Lcv & Fcu & Fcv).
  apply rbind_Ok in H. destruct H as (uv & Hmix & H).
  rewrite !map_map in Hmix. rewrite combine_maps in Hmix.
  destruct (shift_facts depth Hd) as (S1 & S2 & S3 & S4 & S5). pose proof (monoBits_range depth Hd) as MB.
  assert (Fh : Forall (fun x => inRange (monoBits depth) (fst x) /\ inRange (monoBits depth) (snd x)) (map (fun x => (highOf depth (fst x), highOf depth (snd x))) lrs)).
  { clear - FF Hd. induction FF as [|x l [A B] FF IH]; [constructor|]. constructor; [cbn [fst snd]; split; apply highOf_range; assumption|exact IH]. }
  destruct (mix_list (monoBits depth) (c_res ch) _ uv ltac:(lia) Hres Fh Hmix) as (Fu & Fv & Luv & Hunmix).
  assert (Lhs : zlen (map (fun x => (highOf depth (fst x), highOf depth (snd x))) lrs) = n) by (unfold zlen in *; rewrite map_length; exact Zl). rewrite Lhs in Luv.
  change (depth - shiftOf depth + 1) with (monoBits depth + 1) in *. set (cb := monoBits depth + 1) in *. assert (CB : 17 <= cb <= 21) by (unfold cb; lia).
  set (shf := if shiftOf depth =? 0 then [] else map (fun lr => (shiftOf depth * 2, Z.lor (Z.shiftl (lowOf depth (fst lr)) (shiftOf depth)) (lowOf depth (snd lr)))) lrs) in *.
  assert (Eshf : shf = if shiftOf depth =? 0 then [] else map (fun x => (shiftOf depth * 2, Z.lor (Z.shiftl (fst x) (shiftOf depth)) (snd x))) (map (fun x => (lowOf depth (fst x), lowOf depth (snd x))) lrs)).
  { unfold shf. destruct (shiftOf depth =? 0); [reflexivity|]. rewrite map_map. reflexivity. }
  clearbody shf.
  set (lows := map (fun x => (lowOf depth (fst x), lowOf depth (snd x))) lrs) in *.
  assert (Llow : zlen lows = n) by (unfold zlen, lows in *; rewrite map_length; exact Zl).
  assert (Flow : Forall (fun x => 0 <= fst x < 2 ^ shiftOf depth /\ 0 <= snd x < 2 ^ shiftOf depth) lows).
  { unfold lows. apply Forall_forall. intros x Hx. apply in_map_iff in Hx. destruct Hx as (y & <- & _). cbn [fst snd]. split; apply lowOf_range; exact Hd. }
  assert (Bshf : fbits shf = shiftOf depth * 2 * n).
  { rewrite Eshf. destruct (Z.eqb_spec (shiftOf depth) 0) as [E|E]; [change (fbits []) with 0; nia|]. rewrite (fbits_map _ (shiftOf depth * 2)) by reflexivity. rewrite Llow. reflexivity. }
  assert (Wshf : widthsOk shf).
  { rewrite Eshf. destruct (shiftOf depth =? 0); [constructor|]. apply (widths_map _ (shiftOf depth * 2)); [reflexivity|lia]. }
  set (PU := paramFields (c_numU ch) (c_coefsU ch)) in *. set (PV := paramFields (c_numV ch) (c_coefsV ch)) in *.
  set (L := headFields fr n (Z.shiftl (shiftOf depth / 8) 1) ++ [(8, 2); (8, c_res ch)] ++ PU ++ PV ++ shf) in *.
  assert (WL : widthsOk L).
  { apply widthsOk_app; [apply headFields_widths|]. apply widthsOk_app; [repeat constructor; cbn [fst]; lia|]. apply widthsOk_app; [apply paramFields_widths|].
    apply widthsOk_app; [apply paramFields_widths|exact Wshf]. }
  assert (BL : fbits L = fbits (headFields fr n (Z.shiftl (shiftOf depth / 8) 1)) + 16 + fbits PU + fbits PV + shiftOf depth * 2 * n).
  { unfold L. rewrite !fbits_app. change (fbits [(8, 2); (8, c_res ch)]) with 16. lia. }
  apply rbind_Ok in H. destruct H as (b1 & H1 & H). apply bbWrites_inv in H1; [|exact WL|exact Hb|lia].
  apply rbind_Ok in H. destruct H as (eu & Hpu & H). apply rbind_Ok in H. destruct H as ([b2 p2] & H2 & H). cbn [fst snd] in H.
  apply rbind_Ok in H. destruct H as (ev & Hpv & H). apply rbind_Ok in H. destruct H as ([b3 p3] & H3 & H). cbn [fst snd] in H.
  pose proof (fbits_nonneg L (widthsOk_fields L WL)) as NL.
  assert (Lu : zlen (map fst uv) = n) by (unfold zlen in *; rewrite map_length; exact Luv). assert (Lv : zlen (map snd uv) = n) by (unfold zlen in *; rewrite map_length; exact Luv).
  destruct (pc_block_undo fr fr (c_numU ch) cb 9 (c_coefsU ch) (map fst uv) eu) as (Huu & Feu & Leu); [lia|lia|exact Hnu|exact Fu|lia|lia|exact Hpu|].
  destruct (pc_block_undo fr fr (c_numV ch) cb 9 (c_coefsV ch) (map snd uv) ev) as (Huv & Fev & Lev); [lia|lia|exact Hnv|exact Fv|lia|lia|exact Hpv|].
  pose proof (golombFields_ok cb eu ltac:(lia) Feu) as [OU BU]. pose proof (golombFields_ok cb ev ltac:(lia) Fev) as [OV BV].
  apply dyn_comp_wrote in H2; [|lia|exact Feu|exact (wrote_bytes _ _ _ _ H1)|lia]. destruct H2 as [H2 ->].
  pose proof (fbits_nonneg _ OU) as NU. pose proof (fbits_nonneg _ OV) as NV.
  apply dyn_comp_wrote in H3; [|lia|exact Fev|exact (wrote_bytes _ _ _ _ H2)|lia]. destruct H3 as [H3 ->].
  set (GU := golombFields cb eu) in *. set (GV := golombFields cb ev) in *.
  assert (W2 : wrote b p (L ++ GU) b2) by (eapply wrote_app; [apply widthsOk_fields; exact WL|lia|exact H1|exact H2]).
  assert (OLU : fieldsOk (L ++ GU)) by (apply fieldsOk_app; split; [apply widthsOk_fields; exact WL|exact OU]).
  assert (W3 : wrote b p ((L ++ GU) ++ GV) b3) by (eapply wrote_app; [exact OLU|lia|exact W2|rewrite fbits_app, Z.add_assoc; exact H3]).
  destruct (Z.leb_spec (escapeBits fr depth n 2) (p + fbits L + fbits GU + fbits GV - p)) as [Big|Small].
  { apply stereoEscape_inv in H; [|assumption|assumption|lia|assumption|exact (wrote_bytes _ _ _ _ W3)|assumption]. rewrite Zl in H. destruct H as (F & A1 & A2 & A3 & A4 & A5).
    exists F. split; [exact Hls|]. split; [exact Hrs|]. split; [exact (wrote_over _ _ _ _ _ _ W3 A1)|]. split; [exact A2|]. split; [exact A3|]. split; [lia|exact A5]. }
  assert (Eb : b3 = b') by congruence. assert (Ep : p' = p + fbits L + fbits GU + fbits GV) by congruence. clear H. subst b3 p'.
  exists ((L ++ GU) ++ GV). split; [exact Hls|]. split; [exact Hrs|]. split; [exact W3|]. split; [apply fieldsOk_app; split; [exact OLU|exact OV]|].
  assert (BF : fbits ((L ++ GU) ++ GV) = fbits L + fbits GU + fbits GV) by (rewrite !fbits_app; reflexivity). rewrite BF. split; [lia|]. split; [lia|].
  intros q size inst m c channels out l Hq Hs Hl Hh Hm. rewrite BF in *.
  set (R0 := PU ++ PV ++ shf ++ GU ++ GV ++ l) in *.
  assert (HS : holds q (p - 4) ((4, inst) :: headFields fr n (Z.shiftl (shiftOf depth / 8) 1) ++ (8, 2) :: (8, c_res ch) :: R0)).
  { unfold L in Hh. rewrite <- !app_assoc in Hh. exact Hh. }
  clear Hh. unfold decodeStereo.
  pose proof (fbits_nonneg _ (widthsOk_fields _ (headFields_widths fr n (Z.shiftl (shiftOf depth / 8) 1)))) as NH.
  pose proof (fbits_nonneg _ (widthsOk_fields _ (paramFields_widths (c_numU ch) (c_coefsU ch)))) as NPU.
  pose proof (fbits_nonneg _ (widthsOk_fields _ (paramFields_widths (c_numV ch) (c_coefsV ch)))) as NPV. fold PU in NPU. fold PV in NPV.
  assert (NS : 0 <= shiftOf depth * 2 * n) by nia.
  destruct (readHead_ok q size Hq Hs (p - 4) inst fr n m (Z.shiftl (shiftOf depth / 8) 1) ((8, 2) :: (8, c_res ch) :: R0)) as [pa Eh];
    [change (2 ^ 24) with 16777216 in Hf; change (2 ^ 32) with 4294967296; lia|exact Hm|exact S3|lia|lia|exact HS|].
  rewrite Eh. clear Eh. cbn [rbind h_samples h_bytes h_escape h_pos]. rewrite S4. replace (Z.shiftl (shiftOf depth / 8) 1 =? 1) with false by lia. cbv iota. cbn [cookie g_depth g_frame].
  replace (depth - shiftOf depth / 8 * 8 + 1) with cb by (unfold cb, monoBits; lia).
  destruct HS as [_ HS]. apply holds_app in HS. destruct HS as [_ HS]. set (P := p - 4 + 4 + fbits (headFields fr n (Z.shiftl (shiftOf depth / 8) 1))) in *.
  assert (EP : P = p + fbits (headFields fr n (Z.shiftl (shiftOf depth / 8) 1))) by (unfold P; lia). clearbody P.
  rewrite (rd q size Hq Hs P 8 _ _ HS) by lia. cbn [rbind]. destruct HS as [_ HS].
  rewrite (rd q size Hq Hs (P + 8) 8 _ _ HS) by lia. cbn [rbind]. destruct HS as [_ HS]. replace (P + 8 + 8) with (P + 16) in HS by lia. unfold R0 in HS.
  rewrite (readParams_ok q size Hq Hs (P + 16) (c_numU ch) (c_coefsU ch) _ Hnu Lcu Fcu) with (3 := HS) by (fold PU; lia). cbn [rbind q_pos]. fold PU.
  apply holds_app in HS. destruct HS as [_ HS].
  rewrite (readParams_ok q size Hq Hs (P + 16 + fbits PU) (c_numV ch) (c_coefsV ch) _ Hnv Lcv Fcv) with (3 := HS) by (fold PV; lia). cbn [rbind q_pos]. fold PV.
  apply holds_app in HS. destruct HS as [_ HS]. set (Q := P + 16 + fbits PU + fbits PV) in *.
  assert (EQ : Q + shiftOf depth * 2 * n = p + fbits L) by (unfold Q; lia). assert (0 <= Q) by (unfold Q; lia). clearbody Q.
  assert (Ead : (if shiftOf depth / 8 =? 0 then Q else Q + u32 (shiftOf depth / 8 * 8 * 2 * n)) = p + fbits L).
  { replace (shiftOf depth / 8 * 8) with (shiftOf depth) by lia. destruct (Z.eqb_spec (shiftOf depth / 8) 0) as [E|E]; [lia|]. unfold u32. rewrite uN_small; [lia|]. change (2 ^ 24) with 16777216 in Hf. change (2 ^ 32) with 4294967296. nia. }
  rewrite Ead. assert (HG : holds q (p + fbits L) (GU ++ GV ++ l)).
  { apply holds_app in HS. destruct HS as [_ HG]. rewrite Bshf, EQ in HG. exact HG. }
  rewrite (readResidual_ok q size Hq Hs fr depth cb (p + fbits L) n (c_numU ch) (c_coefsU ch) (map fst uv) eu _ (GV ++ l)) by (try assumption; try lia; fold GU; lia).
  cbn [rbind]. fold GU. apply holds_app in HG. destruct HG as [_ HG].
  rewrite (readResidual_ok q size Hq Hs fr depth cb (p + fbits L + fbits GU) n (c_numV ch) (c_coefsV ch) (map snd uv) ev _ l) by (try assumption; try lia; fold GV; lia).
  cbn [rbind]. fold GV.
  assert (ELow : (if shiftOf depth / 8 =? 0 then Ok (map (fun _ => (0, 0)) (map fst uv)) else do l <- readMany (Z.to_nat (2 * n)) q Q (shiftOf depth / 8 * 8); Ok (unzip2 l)) = Ok lows).
  { replace (shiftOf depth / 8 * 8) with (shiftOf depth) by lia. destruct (Z.eqb_spec (shiftOf depth / 8) 0) as [E|E].
    - f_equal. clear - Flow Llow Lu S2 E. rewrite E in S2. rewrite S2 in Flow. change (2 ^ (8 * 0)) with 1 in Flow.
      assert (LL : length (map fst uv) = length lows) by (unfold zlen in *; lia). clear - Flow LL. revert Flow LL. generalize (map fst uv). clear. intros us F. revert us.
      induction F as [|[x y] l [A B] F IH]; intros [|u us] H; try discriminate; [reflexivity|]. cbn [map fst snd] in *. rewrite IH by (cbn [length] in H; lia). f_equal. f_equal; lia.
    - rewrite Eshf in HS. replace (shiftOf depth =? 0) with false in HS by lia. apply holds_pairs in HS; [|lia|exact Flow].
      replace (Z.to_nat (2 * n)) with (length (weave lows)) by (pose proof (zlen_weave lows) as X; unfold zlen in *; lia).
      rewrite (readMany_ok q size Hq Hs (shiftOf depth) (weave lows) Q (GU ++ GV ++ l)) by (try assumption; try lia; rewrite zlen_weave; lia).
      cbn [rbind]. f_equal. rewrite <- (unzip2_weave lows) at 2. f_equal. rewrite <- (map_id (weave lows)) at 2. apply map_ext_in. intros x Hx. apply Z.mod_small.
      pose proof (weave_Forall (fun z => 0 <= z < 2 ^ shiftOf depth) lows Flow) as FW. rewrite Forall_forall in FW. exact (FW x Hx). }
  rewrite ELow. cbn [rbind]. replace (shiftOf depth / 8 * 8) with (shiftOf depth) by lia. rewrite combine_split_eq.
  change (2 mod 2 ^ 8) with 2. replace (s8 (c_res ch mod 2 ^ 8)) with (c_res ch).
  2:{ change (2 ^ 8) with 256. unfold s8, sN. change (2 ^ 8) with 256. change (2 ^ (8 - 1)) with 128. lia. }
  rewrite Hunmix. cbn [rbind]. unfold lows. rewrite combine_maps, !map_map. cbn [fst snd].
  replace (map (fun x => outputOf depth (shiftOf depth) (highOf depth (fst x)) (lowOf depth (fst x))) lrs) with (map (fun x => kept depth (fst x)) lrs).
  2:{ clear - FF Hd. induction FF as [|x l [A B] FF IH]; [reflexivity|]. cbn [map]. rewrite output_back by assumption. f_equal. exact IH. }
  replace (map (fun x => outputOf depth (shiftOf depth) (highOf depth (snd x)) (lowOf depth (snd x))) lrs) with (map (fun x => kept depth (snd x)) lrs).
  2:{ clear - FF Hd. induction FF as [|x l [A B] FF IH]; [reflexivity|]. cbn [map]. rewrite output_back by assumption. f_equal. exact IH. }
  replace (p + (fbits L + fbits GU + fbits GV)) with (p + fbits L + fbits GU + fbits GV) by lia. reflexivity.
Qed.
