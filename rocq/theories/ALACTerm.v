(** * Decoding an ALAC packet ends, whatever is in it *)
From Verif Require Import Prelude PreludeFacts MetadataProofs ALACBits ALACGolomb ALACGolombProofs ALACPredict ALACCodec ALACCodecProofs ALACElements ALACPacket.

(** The computation comes to an end: the bound on the number of turns that the model gives its loops is not reached. *)
Definition ends {A} (r : res A) : Prop := r <> OutOfFuel.
Lemma ends_ok {A} (a : A) : ends (Ok a). Proof. discriminate. Qed.
Lemma ends_bind {A C} (r : res A) (f : A -> res C) : ends r -> (forall a, r = Ok a -> ends (f a)) -> ends (do a <- r; f a).
Proof. unfold ends. destruct r; cbn [rbind]; intros H1 H2; try discriminate; [apply H2; reflexivity|exfalso; apply H1; reflexivity]. Qed.
Lemma aget_ends (l : list Z) i : ends (aget l i).
Proof. unfold aget. destruct (i <? 0); [discriminate|]. destruct (nth_error l (Z.to_nat i)); discriminate. Qed.
Lemma bbRead_ends b p n : ends (bbRead b p n).
Proof. unfold bbRead. repeat (apply ends_bind; [apply aget_ends|intros ? _]). discriminate. Qed.
Lemma bbReadSmall_ends b p n : ends (bbReadSmall b p n).
Proof. unfold bbReadSmall. repeat (apply ends_bind; [apply aget_ends|intros ? _]). discriminate. Qed.
Lemma i32_ends {W : Arith} x : ends (i32 x).
Proof. unfold i32. destruct (inS 32 x); [discriminate|]. destruct wraps; discriminate. Qed.
Lemma read32be_ends b i : ends (read32be b i).
Proof. unfold read32be. repeat (apply ends_bind; [apply aget_ends|intros ? _]). discriminate. Qed.
Lemma readMany_ends k : forall b p n, ends (readMany k b p n).
Proof. induction k as [|k IH]; intros; cbn [readMany]; [discriminate|]. apply ends_bind; [apply bbRead_ends|intros ? _]. apply ends_bind; [apply IH|intros ? _]. discriminate. Qed.
Lemma readHead_ends b p n : ends (readHead b p n).
Proof.
  unfold readHead. apply ends_bind; [apply bbReadSmall_ends|intros ? _]. apply ends_bind; [apply bbRead_ends|intros u _]. destruct (negb (u =? 0)); [discriminate|].
  apply ends_bind; [apply bbRead_ends|intros h _]. cbv zeta. destruct (Z.land (Z.shiftr h 1) 3 =? 3); [discriminate|]. destruct (negb (Z.shiftr h 3 =? 0)); [|discriminate].
  apply ends_bind; [apply bbRead_ends|intros ? _]. apply ends_bind; [apply bbRead_ends|intros ? _]. discriminate.
Qed.
Lemma readParams_ends b p : ends (readParams b p).
Proof. unfold readParams. apply ends_bind; [apply bbRead_ends|intros ? _]. apply ends_bind; [apply bbRead_ends|intros ? _]. apply ends_bind; [apply readMany_ends|intros ? _]. discriminate. Qed.
Lemma readRaw_ends b p c : ends (readRaw b p c).
Proof. unfold readRaw. destruct (c <=? 16); repeat (apply ends_bind; [apply bbRead_ends|intros ? _]); discriminate. Qed.
Lemma readRaws_ends k : forall b p c, ends (readRaws k b p c).
Proof. induction k as [|k IH]; intros; cbn [readRaws]; [discriminate|]. apply ends_bind; [apply readRaw_ends|intros ? _]. apply ends_bind; [apply IH|intros ? _]. discriminate. Qed.
Lemma storeColumn_ends : forall ys out i s, ends (storeColumn out i s ys).
Proof.
  induction ys as [|y ys IH]; intros; cbn [storeColumn]; [discriminate|]. apply ends_bind; [|intros; apply IH].
  unfold aset. destruct ((0 <=? i) && (i <? zlen out)); discriminate.
Qed.
Lemma rmapM_ends {A C} (f : A -> res C) l : (forall x, ends (f x)) -> ends (rmapM f l).
Proof. intros H. induction l as [|x l IH]; cbn [rmapM]; [discriminate|]. apply ends_bind; [apply H|intros ? _]. apply ends_bind; [exact IH|intros ? _]. discriminate. Qed.

Lemma unmixOne_ends {W : Arith} mb mr x : ends (unmixOne mb mr x).
Proof. destruct x as [u v]. unfold unmixOne. destruct (mr =? 0); [discriminate|]. destruct (31 <? mb); [discriminate|]. repeat (apply ends_bind; [apply i32_ends|intros ? _]). discriminate. Qed.
Lemma diffs_ends {W : Arith} k : forall top h, ends (diffs k top h).
Proof. induction k as [|k IH]; intros top [|x h]; cbn [diffs]; try discriminate. apply ends_bind; [apply i32_ends|intros ? _]. apply ends_bind; [apply IH|intros ? _]. discriminate. Qed.
Lemma dotSub_ends {W : Arith} : forall cs bs acc, ends (dotSub acc cs bs).
Proof. induction cs as [|a cs IH]; intros [|b bs] acc; cbn [dotSub]; try discriminate. repeat (apply ends_bind; [apply i32_ends|intros ? _]). apply IH. Qed.
Lemma dotAdd_ends {W : Arith} : forall cs bs acc, ends (dotAdd acc cs bs).
Proof. induction cs as [|a cs IH]; intros [|b bs] acc; cbn [dotAdd]; try discriminate. repeat (apply ends_bind; [apply i32_ends|intros ? _]). apply IH. Qed.
Lemma unpcSum_ends {W : Arith} n d cs bs : ends (unpcSum n d cs bs).
Proof. unfold unpcSum. cbv zeta. destruct ((n =? 4) || (n =? 8)); [apply dotSub_ends|]. apply ends_bind; [apply dotAdd_ends|intros ? _]. apply i32_ends. Qed.
Lemma adapt_ends {W : Arith} pos d : forall l w del, ends (adapt pos d w del l).
Proof.
  induction l as [|[a b] l IH]; intros w del; cbn [adapt]; [discriminate|]. cbv zeta. destruct l as [|q l]; [discriminate|].
  repeat (apply ends_bind; [apply i32_ends|intros ? _]). match goal with |- ends (if ?c then _ else _) => destruct c end; [discriminate|]. apply ends_bind; [apply IH|intros ? _]. discriminate.
Qed.
Lemma adaptAll_ends {W : Arith} d del cs bs : ends (adaptAll d del cs bs).
Proof. unfold adaptAll. cbv zeta. destruct (signOfInt del =? 0); [discriminate|]. apply ends_bind; [apply adapt_ends|intros ? _]. discriminate. Qed.
Lemma unpcLoop_ends {W : Arith} cb d n : forall ds cs h, ends (unpcLoop cb d n cs h ds).
Proof.
  induction ds as [|x ds IH]; intros cs h; cbn [unpcLoop]; [discriminate|]. destruct (zlen h <=? n).
  - apply ends_bind; [apply aget_ends|intros ? _]. apply ends_bind; [apply i32_ends|intros ? _]. cbv zeta. apply ends_bind; [apply IH|intros ? _]. discriminate.
  - apply ends_bind; [apply aget_ends|intros ? _]. apply ends_bind; [apply diffs_ends|intros ? _]. apply ends_bind; [apply unpcSum_ends|intros ? _].
    apply ends_bind; [apply i32_ends|intros ? _]. apply ends_bind; [apply i32_ends|intros ? _]. cbv zeta. apply ends_bind; [apply adaptAll_ends|intros ? _]. apply ends_bind; [apply IH|intros ? _]. discriminate.
Qed.
Lemma undeltas_ends {W : Arith} cb : forall ds p, ends (undeltas cb p ds).
Proof. induction ds as [|x ds IH]; intros p; cbn [undeltas]; [discriminate|]. apply ends_bind; [apply i32_ends|intros ? _]. cbv zeta. apply ends_bind; [apply IH|intros ? _]. discriminate. Qed.
Lemma unpc_block_ends {W : Arith} room n cb d cs ds : ends (unpc_block room n cb d cs ds).
Proof.
  unfold unpc_block. destruct (negb (pcRoom room (zlen ds) n)); [discriminate|]. destruct ds as [|x ds]; [discriminate|]. destruct (n =? 0); [discriminate|].
  destruct (n =? 31); [apply ends_bind; [apply undeltas_ends|intros ? _]; discriminate|]. destruct (d <? 1); [discriminate|]. apply ends_bind; [apply unpcLoop_ends|intros ? _]; discriminate.
Qed.

(** ** The residuals *)
Lemma uN_ge0 n x : 0 <= n -> 0 <= uN n x. Proof. intros H. unfold uN. apply Z.mod_pos_bound. apply Z.pow_pos_nonneg; lia. Qed.
Lemma dynGet32_moves b p m k mx n p' : 0 <= mx -> dynGet32 b p m k mx = Ok (n, p') -> p <= p'.
Proof.
  intros Hm H. unfold dynGet32 in H. apply rbind_Ok in H. destruct H as (w & _ & H). cbv zeta in H. pose proof (leadLoop_nonneg 32 (u32 (Z.lnot (u32 (Z.shiftl w (p mod 8)))))) as L. fold (lead (u32 (Z.lnot (u32 (Z.shiftl w (p mod 8)))))) in L.
  set (pre := lead (u32 (Z.lnot (u32 (Z.shiftl w (p mod 8)))))) in *. clearbody pre. destruct (9 <=? pre).
  - apply rbind_Ok in H. destruct H as (r & _ & H). assert (p' = p + 9 + mx) by congruence. lia.
  - destruct (k =? 1); [assert (p' = p + pre + 1) by congruence; lia|]. destruct (Z.leb_spec k 0); [discriminate|].
    match type of H with (if ?c then _ else _) = _ => destruct c end; [assert (p' = p + pre + 1 + k - 1 + 1) by congruence; lia|assert (p' = p + pre + 1 + k - 1) by congruence; lia].
Qed.
Lemma dynGet_moves b p m k n p' : dynGet b p m k = Ok (n, p') -> p <= p' /\ 0 <= n.
Proof.
  intros H. unfold dynGet in H. apply rbind_Ok in H. destruct H as (w & _ & H). cbv zeta in H. pose proof (leadLoop_nonneg 32 (u32 (Z.lnot (u32 (Z.shiftl w (p mod 8)))))) as L. fold (lead (u32 (Z.lnot (u32 (Z.shiftl w (p mod 8)))))) in L.
  set (pre := lead (u32 (Z.lnot (u32 (Z.shiftl w (p mod 8)))))) in *. clearbody pre. destruct (9 <=? pre).
  - assert (E : n = Z.shiftr (u32 (Z.shiftl (u32 (Z.shiftl w (p mod 8))) 9)) (32 - 16)) by congruence. assert (E2 : p' = p + 9 + 16) by congruence. split; [lia|]. rewrite E. apply Z.shiftr_nonneg. apply uN_ge0. lia.
  - destruct (Z.leb_spec k 0); [discriminate|].
    match type of H with (if ?c then _ else _) = _ => destruct c end.
    + match type of H with Ok (?a, _) = _ => assert (E : n = a) by congruence end. assert (E2 : p' = p + pre + 1 + k - 1) by congruence. split; [lia|]. rewrite E. apply uN_ge0. lia.
    + match type of H with Ok (?a, _) = _ => assert (E : n = a) by congruence end. assert (E2 : p' = p + pre + 1 + k) by congruence. split; [lia|]. rewrite E. apply uN_ge0. lia.
Qed.
Lemma getstreambits_ends b p n : ends (getstreambits b p n).
Proof.
  unfold getstreambits. destruct ((n <=? 0) || (32 <? n)); [discriminate|]. apply ends_bind; [apply read32be_ends|intros ? _]. cbv zeta.
  apply ends_bind; [|intros ? _; discriminate]. destruct (32 <? n + p mod 8); [|discriminate]. apply ends_bind; [apply aget_ends|intros ? _]. discriminate.
Qed.
Lemma dynGet32_ends b p m k mx : ends (dynGet32 b p m k mx).
Proof.
  unfold dynGet32. apply ends_bind; [apply read32be_ends|intros ? _]. cbv zeta.
  match goal with |- ends (if ?c then _ else _) => destruct c end; [apply ends_bind; [apply getstreambits_ends|intros ? _]; discriminate|].
  destruct (k =? 1); [discriminate|]. destruct (k <=? 0); [discriminate|]. match goal with |- ends (if ?c then _ else _) => destruct c end; discriminate.
Qed.
Lemma dynGet_ends b p m k : ends (dynGet b p m k).
Proof.
  unfold dynGet. apply ends_bind; [apply read32be_ends|intros ? _]. cbv zeta. match goal with |- ends (if ?c then _ else _) => destruct c end; [discriminate|].
  destruct (k <=? 0); [discriminate|]. match goal with |- ends (if ?c then _ else _) => destruct c end; discriminate.
Qed.
Lemma dynDecomp_ends a mx b lim : forall fuel p rem room mb zm, (Z.to_nat rem <= fuel)%nat -> ends (dynDecomp fuel a mx b p lim rem room mb zm).
Proof.
  induction fuel as [|fuel IH]; intros p rem room mb zm Hf; cbn [dynDecomp].
  - replace (rem <=? 0) with true by lia. discriminate.
  - destruct (Z.leb_spec rem 0); [discriminate|]. destruct (lim <=? p); [discriminate|]. cbv zeta. apply ends_bind; [apply dynGet32_ends|intros [n p1] _].
    destruct (room <=? 0); [discriminate|]. destruct (runNext (meanNext a mb n zm) && (1 <? rem)).
    + destruct (31 <=? runK (meanNext a mb n zm)); [discriminate|]. apply ends_bind; [apply dynGet_ends|intros [nz p2] E]. apply dynGet_moves in E. destruct (rem - 1 <? nz); [discriminate|]. destruct (room - 1 <? nz); [discriminate|].
      apply ends_bind; [apply IH; lia|intros ? _]. discriminate.
    + apply ends_bind; [apply IH; lia|intros ? _]. discriminate.
Qed.
Lemma dynDecomp_moves a mx b lim : 0 <= mx -> forall fuel p rem room mb zm l q, dynDecomp fuel a mx b p lim rem room mb zm = Ok (Some (l, q)) -> p <= q.
Proof.
  intros Hm. induction fuel as [|fuel IH]; intros p rem room mb zm l q H; cbn [dynDecomp] in H.
  - destruct (rem <=? 0); [|discriminate]. assert (q = p) by congruence. lia.
  - destruct (Z.leb_spec rem 0); [assert (q = p) by congruence; lia|]. destruct (lim <=? p); [discriminate|]. cbv zeta in H. apply rbind_Ok in H. destruct H as ([n p1] & E1 & H). apply dynGet32_moves in E1; [|exact Hm].
    destruct (room <=? 0); [discriminate|]. destruct (runNext (meanNext a mb n zm) && (1 <? rem)).
    + destruct (31 <=? runK (meanNext a mb n zm)); [discriminate|]. apply rbind_Ok in H. destruct H as ([nz p2] & E2 & H). apply dynGet_moves in E2. destruct (rem - 1 <? nz); [discriminate|]. destruct (room - 1 <? nz); [discriminate|].
      apply rbind_Ok in H. destruct H as ([[l' q']|] & E3 & H); [|discriminate]. apply IH in E3. assert (q = q') by congruence. lia.
    + apply rbind_Ok in H. destruct H as ([[l' q']|] & E3 & H); [|discriminate]. apply IH in E3. assert (q = q') by congruence. lia.
Qed.
Lemma readResidual_ends {W : Arith} g cb b size p n q : ends (readResidual g cb b size p n q).
Proof.
  unfold readResidual. destruct ((cb <? 1) && (0 <? n)); [discriminate|]. apply ends_bind; [unfold dyn_decomp; apply ends_bind; [apply dynDecomp_ends; lia|intros ? _; discriminate]|intros [[ds p']|] _; [|discriminate]].
  apply ends_bind; [destruct (q_mode q =? 0); [discriminate|apply unpc_block_ends]|intros ? _]. apply ends_bind; [apply unpc_block_ends|intros ? _]. discriminate.
Qed.
Lemma readResidual_moves {W : Arith} g cb b size p n q ys p' : readResidual g cb b size p n q = Ok (Some (ys, p')) -> p <= p'.
Proof.
  unfold readResidual. intros H. destruct (Z.ltb_spec cb 1) as [C|C].
  - destruct (Z.ltb_spec 0 n) as [N|N]; [discriminate|]. cbn [andb] in H. apply rbind_Ok in H. destruct H as ([[ds p1]|] & E & H); [|discriminate].
    unfold dyn_decomp in E. replace (Z.to_nat n) with O in E by lia. cbn [dynDecomp] in E. replace (n <=? 0) with true in E by lia. cbn [rbind] in E. destruct (p / 8 <=? size); [|discriminate]. assert (p1 = p) by congruence.
    apply rbind_Ok in H. destruct H as (d1 & _ & H). apply rbind_Ok in H. destruct H as (d2 & _ & H). assert (p' = p1) by congruence. lia.
  - cbn [andb] in H. apply rbind_Ok in H. destruct H as ([[ds p1]|] & E & H); [|discriminate].
    unfold dyn_decomp in E. apply rbind_Ok in E. destruct E as ([[l1 q1]|] & E & E2); [|discriminate]. apply dynDecomp_moves in E; [|lia]. destruct (q1 / 8 <=? size); [|discriminate]. assert (p1 = q1) by congruence.
    apply rbind_Ok in H. destruct H as (d1 & _ & H). apply rbind_Ok in H. destruct H as (d2 & _ & H). assert (p' = p1) by congruence. lia.
Qed.

(** ** The elements *)
Lemma bbRead_ge0 b p n x : bbRead b p n = Ok x -> 0 <= x.
Proof.
  unfold bbRead. intros H. apply rbind_Ok in H. destruct H as (x0 & _ & H). apply rbind_Ok in H. destruct H as (x1 & _ & H). apply rbind_Ok in H. destruct H as (x2 & _ & H).
  match type of H with Ok ?a = _ => assert (E : x = a) by congruence end. rewrite E. apply Z.shiftr_nonneg. apply Z.land_nonneg. right. lia.
Qed.
Lemma readHead_moves b p n h : 0 <= n -> readHead b p n = Ok (Some h) -> p + 20 <= h_pos h /\ 0 <= h_samples h.
Proof.
  intros Hn H. unfold readHead in H. apply rbind_Ok in H. destruct H as (x0 & _ & H). apply rbind_Ok in H. destruct H as (x1 & _ & H). destruct (negb (x1 =? 0)); [discriminate|].
  apply rbind_Ok in H. destruct H as (x2 & _ & H). cbv zeta in H. destruct (Z.land (Z.shiftr x2 1) 3 =? 3); [discriminate|]. destruct (negb (Z.shiftr x2 3 =? 0)).
  - apply rbind_Ok in H. destruct H as (hi & _ & H). apply rbind_Ok in H. destruct H as (lo & L & H). apply bbRead_ge0 in L. match type of H with Ok (Some ?a) = _ => assert (E : h = a) by congruence end. subst h. cbn [h_pos h_samples]. split; [lia|].
    apply Z.lor_nonneg. split; [apply uN_ge0; lia|exact L].
  - match type of H with Ok (Some ?a) = _ => assert (E : h = a) by congruence end. subst h. cbn [h_pos h_samples]. lia.
Qed.
Lemma readParams_moves b p q : readParams b p = Ok q -> p <= q_pos q.
Proof.
  intros H. unfold readParams in H. apply rbind_Ok in H. destruct H as (x0 & _ & H). apply rbind_Ok in H. destruct H as (x1 & _ & H). cbv zeta in H. apply rbind_Ok in H. destruct H as (cs & _ & H).
  match type of H with Ok ?a = _ => assert (E : q = a) by congruence end. subst q. cbn [q_pos]. assert (0 <= Z.land x1 31) by (apply Z.land_nonneg; right; lia). lia.
Qed.

Lemma decodeMono_ends {W : Arith} g b size p n c ch out : ends (decodeMono g b size p n c ch out).
Proof.
  unfold decodeMono. apply ends_bind; [apply readHead_ends|intros [h|] _; [|discriminate]]. cbv zeta. apply ends_bind.
  - destruct (h_escape h).
    + match goal with |- ends (if ?x then _ else _) => destruct x end; [discriminate|]. apply ends_bind; [apply readRaws_ends|intros ? _]. discriminate.
    + apply ends_bind; [apply bbRead_ends|intros ? _]. apply ends_bind; [apply bbRead_ends|intros ? _]. apply ends_bind; [apply readParams_ends|intros ? _]. apply ends_bind; [apply readResidual_ends|intros [[us p']|] _; [|discriminate]].
      apply ends_bind; [destruct (h_bytes h =? 0); [discriminate|apply readMany_ends]|intros ? _]. discriminate.
  - intros [[[[us sh] lows] p']|] _; [|discriminate]. apply ends_bind; [apply storeColumn_ends|intros ? _]. discriminate.
Qed.
Lemma decodeStereo_ends {W : Arith} g b size p n c ch out : ends (decodeStereo g b size p n c ch out).
Proof.
  unfold decodeStereo. apply ends_bind; [apply readHead_ends|intros [h|] _; [|discriminate]]. cbv zeta. apply ends_bind.
  - destruct (h_escape h).
    + match goal with |- ends (if ?x then _ else _) => destruct x end; [discriminate|]. apply ends_bind; [apply readRaws_ends|intros ? _]. discriminate.
    + apply ends_bind; [apply bbRead_ends|intros ? _]. apply ends_bind; [apply bbRead_ends|intros ? _]. apply ends_bind; [apply readParams_ends|intros ? _]. apply ends_bind; [apply readParams_ends|intros ? _].
      apply ends_bind; [apply readResidual_ends|intros [[us p']|] _; [|discriminate]]. apply ends_bind; [apply readResidual_ends|intros [[vs p2]|] _; [|discriminate]].
      apply ends_bind; [destruct (h_bytes h =? 0); [discriminate|apply ends_bind; [apply readMany_ends|intros ? _]; discriminate]|intros ? _]. discriminate.
  - intros [[[[[[uv sh] lows] mb] mr] p']|] _; [|discriminate]. apply ends_bind; [apply rmapM_ends; apply unmixOne_ends|intros ? _]. apply ends_bind; [apply storeColumn_ends|intros ? _]. apply ends_bind; [apply storeColumn_ends|intros ? _]. discriminate.
Qed.
Lemma decodeMono_moves {W : Arith} g b size p n c ch out p' n' out' : 0 <= n -> decodeMono g b size p n c ch out = Ok (Some (p', n', out')) -> p <= p' /\ 0 <= n'.
Proof.
  intros Hn H. unfold decodeMono in H. apply rbind_Ok in H. destruct H as ([h|] & Hh & H); [|discriminate]. apply readHead_moves in Hh; [|exact Hn]. cbv zeta in H.
  apply rbind_Ok in H. destruct H as (r & Hr & H). destruct r as [[[[us sh] lows] p1]|]; [|discriminate]. apply rbind_Ok in H. destruct H as (o & _ & H). assert (E1 : p' = p1) by congruence. assert (E2 : n' = h_samples h) by congruence. rewrite E1, E2. split; [|lia].
  destruct (h_escape h).
  - destruct (Z.ltb_spec (g_depth g - h_bytes h * 8) 1); [discriminate|]. destruct (g_frame g <? h_samples h); [discriminate|]. cbn [orb] in Hr. apply rbind_Ok in Hr. destruct Hr as (us' & _ & Hr). assert (E : p1 = h_pos h + (g_depth g - h_bytes h * 8) * h_samples h) by congruence. nia.
  - apply rbind_Ok in Hr. destruct Hr as (z0 & _ & Hr). apply rbind_Ok in Hr. destruct Hr as (z1 & _ & Hr). apply rbind_Ok in Hr. destruct Hr as (q & Hq & Hr). apply readParams_moves in Hq. apply rbind_Ok in Hr. destruct Hr as ([[ys p2]|] & Hy & Hr); [|discriminate].
    apply readResidual_moves in Hy. apply rbind_Ok in Hr. destruct Hr as (l & _ & Hr). assert (E : p1 = p2) by congruence. destruct (h_bytes h =? 0); [lia|]. pose proof (uN_ge0 32 (h_bytes h * 8 * h_samples h) ltac:(lia)) as U. unfold u32 in Hy. lia.
Qed.
Lemma decodeStereo_moves {W : Arith} g b size p n c ch out p' n' out' : 0 <= n -> decodeStereo g b size p n c ch out = Ok (Some (p', n', out')) -> p <= p' /\ 0 <= n'.
Proof.
  intros Hn H. unfold decodeStereo in H. apply rbind_Ok in H. destruct H as ([h|] & Hh & H); [|discriminate]. apply readHead_moves in Hh; [|exact Hn]. cbv zeta in H.
  apply rbind_Ok in H. destruct H as (r & Hr & H). destruct r as [[[[[[uv sh] lows] mb] mr] p1]|]; [|discriminate]. apply rbind_Ok in H. destruct H as (lr & _ & H). apply rbind_Ok in H. destruct H as (o & _ & H). apply rbind_Ok in H. destruct H as (o2 & _ & H).
  assert (E1 : p' = p1) by congruence. assert (E2 : n' = h_samples h) by congruence. rewrite E1, E2. split; [|lia].
  destruct (h_escape h).
  - destruct (Z.ltb_spec (g_depth g) 1); [discriminate|]. destruct (g_frame g <? h_samples h); [discriminate|]. cbn [orb] in Hr. apply rbind_Ok in Hr. destruct Hr as (us' & _ & Hr). assert (E : p1 = h_pos h + g_depth g * (2 * h_samples h)) by congruence. nia.
  - apply rbind_Ok in Hr. destruct Hr as (z0 & _ & Hr). apply rbind_Ok in Hr. destruct Hr as (z1 & _ & Hr). apply rbind_Ok in Hr. destruct Hr as (q & Hq & Hr). apply readParams_moves in Hq. apply rbind_Ok in Hr. destruct Hr as (q2 & Hq2 & Hr). apply readParams_moves in Hq2.
    apply rbind_Ok in Hr. destruct Hr as ([[ys p2]|] & Hy & Hr); [|discriminate]. apply readResidual_moves in Hy. apply rbind_Ok in Hr. destruct Hr as ([[vs p3]|] & Hv & Hr); [|discriminate]. apply readResidual_moves in Hv.
    apply rbind_Ok in Hr. destruct Hr as (l & _ & Hr). assert (E : p1 = p3) by congruence. destruct (h_bytes h =? 0); [lia|]. pose proof (uN_ge0 32 (h_bytes h * 8 * 2 * h_samples h) ltac:(lia)) as U. unfold u32 in Hy. lia.
Qed.
Lemma bbReadSmall_ge0 b p n x : bbReadSmall b p n = Ok x -> 0 <= x.
Proof. unfold bbReadSmall. intros H. apply rbind_Ok in H. destruct H as (x0 & _ & H). apply rbind_Ok in H. destruct H as (x1 & _ & H). match type of H with Ok ?a = _ => assert (E : x = a) by congruence end. rewrite E. apply uN_ge0. lia. Qed.
Lemma fillElement_ends b size p : ends (fillElement b size p).
Proof. unfold fillElement. apply ends_bind; [apply bbReadSmall_ends|intros c _]. apply ends_bind; [destruct (c =? 15); [apply ends_bind; [apply bbReadSmall_ends|intros ? _]; discriminate|discriminate]|intros cp _]. cbv zeta. destruct ((snd cp + 8 * fst cp) / 8 <=? size); discriminate. Qed.
Lemma fillElement_moves b size p p' : fillElement b size p = Ok (Some p') -> p <= p'.
Proof.
  unfold fillElement. intros H. apply rbind_Ok in H. destruct H as (c & C & H). apply bbReadSmall_ge0 in C. apply rbind_Ok in H. destruct H as (cp & E & H). cbv zeta in H. destruct ((snd cp + 8 * fst cp) / 8 <=? size); [|discriminate].
  assert (p' = snd cp + 8 * fst cp) by congruence. destruct (Z.eqb_spec c 15) as [Q|Q].
  - apply rbind_Ok in E. destruct E as (e & Ee & E). apply bbReadSmall_ge0 in Ee. assert (cp = (c + e - 1, p + 12)) by congruence. subst cp. cbn [fst snd] in *. lia.
  - assert (cp = (c, p + 4)) by congruence. subst cp. cbn [fst snd] in *. lia.
Qed.
Lemma dataElement_ends b size p : ends (dataElement b size p).
Proof.
  unfold dataElement. apply ends_bind; [apply bbReadSmall_ends|intros ? _]. apply ends_bind; [apply bbReadSmall_ends|intros ? _]. apply ends_bind; [apply bbReadSmall_ends|intros c _].
  apply ends_bind; [destruct (c =? 255); [apply ends_bind; [apply bbReadSmall_ends|intros ? _]; discriminate|discriminate]|intros cp _]. cbv zeta. match goal with |- ends (if ?x then _ else _) => destruct x end; discriminate.
Qed.
Lemma dataElement_moves b size p p' : dataElement b size p = Ok (Some p') -> p <= p'.
Proof.
  unfold dataElement. intros H. apply rbind_Ok in H. destruct H as (x0 & _ & H). apply rbind_Ok in H. destruct H as (a & _ & H). apply rbind_Ok in H. destruct H as (c & C & H). apply bbReadSmall_ge0 in C. apply rbind_Ok in H. destruct H as (cp & E & H). cbv zeta in H.
  match type of H with (if ?x then _ else _) = _ => destruct x end; [|discriminate].
  assert (X : p + 13 <= snd cp /\ 0 <= fst cp).
  { destruct (Z.eqb_spec c 255) as [Q|Q].
    - apply rbind_Ok in E. destruct E as (e & Ee & E). apply bbReadSmall_ge0 in Ee. assert (cp = (c + e, p + 21)) by congruence. subst cp. cbn [fst snd] in *. lia.
    - assert (cp = (c, p + 13)) by congruence. subst cp. cbn [fst snd] in *. lia. }
  match type of H with Ok (Some ?v) = _ => assert (E2 : p' = v) by congruence end. rewrite E2. assert (AU : snd cp <= alignUp (snd cp)) by (unfold alignUp; match goal with |- context [if ?c then _ else _] => destruct c; lia end). destruct (a =? 0); lia.
Qed.
Lemma silence_ends : forall fuel depth n c ch out, (Z.to_nat (ch - c) <= fuel)%nat -> ends (silence fuel depth n c ch out).
Proof.
  induction fuel as [|fuel IH]; intros depth n c ch out H; cbn [silence]; [replace (ch <=? c) with true by lia; discriminate|]. destruct (Z.leb_spec ch c); [discriminate|].
  apply ends_bind; [destruct (depth =? 20); [discriminate|apply storeColumn_ends]|intros ? _]. apply IH. lia.
Qed.
Lemma endSilent_ends e d n c ch f out : 0 <= c -> ends (endSilent e d n c ch f out).
Proof. intros H. unfold endSilent. apply ends_bind; [apply silence_ends; lia|intros ? _]. discriminate. Qed.

Lemma decodeLoop_ends {W : Arith} g b size ch : forall fuel p n c frames out, 0 <= n -> 0 <= c -> 1 <= Z.of_nat fuel -> 8 * size - p <= Z.of_nat fuel - 1 -> ends (decodeLoop fuel g b size p n c ch frames out).
Proof.
  induction fuel as [|fuel IH]; intros p n c frames out Hn Hc Hf1 Hf; [lia|]. cbn [decodeLoop]. destruct (Z.leb_spec size (p / 8)) as [S|S]; [discriminate|]. assert (P : p < 8 * size) by lia.
  apply ends_bind; [apply bbReadSmall_ends|intros tag _]. cbv zeta.
  assert (GO : forall p' n' c' frames' out', p + 3 <= p' -> 0 <= n' -> 0 <= c' -> ends (if ch <=? c' then endSilent false (g_depth g) n' c' ch frames' out' else decodeLoop fuel g b size p' n' c' ch frames' out')).
  { intros p' n' c' frames' out' Hp Hn' Hc'. destruct (ch <=? c'); [apply endSilent_ends; exact Hc'|]. apply IH; lia. }
  destruct ((tag =? ID_SCE) || (tag =? ID_LFE)).
  { apply ends_bind; [apply decodeMono_ends|intros [[[p' n'] out']|] E; [|discriminate]]. apply decodeMono_moves in E; [|exact Hn]. apply GO; lia. }
  destruct (tag =? ID_CPE).
  { destruct (ch <? c + 2); [apply endSilent_ends; exact Hc|]. apply ends_bind; [apply decodeStereo_ends|intros [[[p' n'] out']|] E; [|discriminate]]. apply decodeStereo_moves in E; [|exact Hn]. apply GO; lia. }
  destruct (tag =? ID_END); [discriminate|]. destruct (tag =? 4).
  { apply ends_bind; [apply dataElement_ends|intros [p'|] E; [|apply endSilent_ends; exact Hc]]. apply dataElement_moves in E. apply GO; lia. }
  destruct (tag =? 6).
  { apply ends_bind; [apply fillElement_ends|intros [p'|] E; [|apply endSilent_ends; exact Hc]]. apply fillElement_moves in E. apply GO; lia. }
  apply endSilent_ends; exact Hc.
Qed.
Lemma decode_ends {W : Arith} g b size n ch out : 0 <= n -> 0 <= size -> ends (decode g b size n ch out).
Proof. intros Hn Hs. unfold decode. destruct (ch <=? 0); [discriminate|]. apply decodeLoop_ends; lia. Qed.
