(** Proofs about [IMA]. *)
From Verif Require Import Prelude PreludeFacts ByteOrderProofs ConvertProofs IMA IMASpec.

Lemma clamp_range x lo hi : lo <= hi -> lo <= clamp x lo hi <= hi.
Proof. unfold clamp; intros. destruct (Z.ltb_spec x lo); [lia|]. rewrite Z.gtb_ltb. destruct (Z.ltb_spec hi x); lia. Qed.
Lemma clamp_id x lo hi : lo <= x <= hi -> clamp x lo hi = x.
Proof. unfold clamp; intros. destruct (Z.ltb_spec x lo); [lia|]. rewrite Z.gtb_ltb. destruct (Z.ltb_spec hi x); lia. Qed.

Lemma aget_step i : 0 <= i <= 88 -> exists s, aget stepTable i = Ok s /\ 7 <= s <= 32767.
Proof.
  intros H.
  pose proof (sweep (fun i => match aget stepTable i with Ok s => (7 <=? s) && (s <=? 32767) | _ => false end) 89
    ltac:(vm_compute; reflexivity) i ltac:(lia)) as E. cbv beta in E.
  destruct (aget stepTable i) as [s| | |]; try discriminate. exists s; split; auto. lia.
Qed.

Lemma aget_step_out i : ~ (0 <= i <= 88) -> aget stepTable i = UB.
Proof.
  intros H. unfold aget. destruct (Z.ltb_spec i 0); auto.
  rewrite (proj2 (nth_error_None stepTable (Z.to_nat i))); auto. cbn [length stepTable]. lia.
Qed.

Lemma aget_index c : 0 <= c < 16 -> exists a, aget indexTable c = Ok a /\ -1 <= a <= 8.
Proof.
  intros H.
  pose proof (sweep (fun i => match aget indexTable i with Ok s => (-1 <=? s) && (s <=? 8) | _ => false end) 16
    ltac:(vm_compute; reflexivity) c ltac:(lia)) as E. cbv beta in E.
  destruct (aget indexTable c) as [s| | |]; try discriminate. exists s; split; auto. lia.
Qed.

Lemma decodeSample_ok st code : 0 <= index st <= 88 -> 0 <= code < 16 ->
  exists st', decodeSample st code = Ok (previousValue st', st') /\ legal st'.
Proof.
  intros Hi Hc. unfold decodeSample.
  destruct (aget_step _ Hi) as (step & -> & Hs). cbn [rbind].
  destruct (aget_index _ Hc) as (a & -> & Ha). cbn [rbind].
  eexists; split; [reflexivity|]. split; cbn [previousValue index]; apply clamp_range; lia.
Qed.

Lemma shr1_1 s : Z.shiftr (Z.shiftr s 1) 1 = Z.shiftr s 2.
Proof. rewrite Z.shiftr_shiftr by lia. reflexivity. Qed.

Lemma lockstep st x : legal st ->
  exists code st', encodeSample st x = Ok (code, st') /\ 0 <= code < 16 /\ legal st' /\
    decodeSample st code = Ok (previousValue st', st').
Proof.
  intros [Hp Hi]. unfold encodeSample, decodeSample.
  destruct (aget_step _ Hi) as (step & -> & Hs). cbn [rbind]. rewrite shr1_1.
  assert (Hr : forall v a, legal (mkState (clamp16 v) (clamp a 0 88)))
    by (intros; split; cbn; apply clamp_range; lia).
  destruct (x - previousValue st <? 0);
  match goal with |- context [?d >=? step] => destruct (d >=? step) end;
  match goal with |- context [?d >=? Z.shiftr step 1] => destruct (d >=? Z.shiftr step 1) end;
  match goal with |- context [?d >=? Z.shiftr step 2] => destruct (d >=? Z.shiftr step 2) end;
  (match goal with |- context [aget indexTable ?c] =>
     let v := eval vm_compute in c in change c with v end);
  match goal with |- context [aget indexTable ?c] =>
    let a := eval vm_compute in (aget indexTable c) in change (aget indexTable c) with a end;
  cbn [rbind];
  (eexists; eexists; split; [reflexivity|]);
  (match goal with |- context [Z.land ?c 15] => let v := eval vm_compute in (Z.land c 15) in change (Z.land c 15) with v
                 | _ => idtac end);
  (split; [lia|]); (split; [apply Hr|]);
  (match goal with |- context [aget indexTable ?c] =>
     let a := eval vm_compute in (aget indexTable c) in change (aget indexTable c) with a end);
  cbn [rbind previousValue index];
  repeat match goal with |- context [Z.testbit ?c ?k] => 
     let v := eval vm_compute in (Z.testbit c k) in change (Z.testbit c k) with v end;
  cbv iota; do 2 f_equal; try reflexivity; f_equal; try reflexivity; f_equal; try lia.
Qed.

Lemma estep_spec st x : legal st ->
  exists code, encodeSample st x = Ok (code, estep st x) /\ 0 <= code < 16 /\ legal (estep st x) /\
    decodeSample st code = Ok (previousValue (estep st x), estep st x).
Proof.
  intros H. destruct (lockstep st x H) as (code & st' & E & Hc & Hl & D).
  unfold estep. rewrite E. eauto.
Qed.

Fixpoint reconCol (st : adpcmState) (xs : list Z) : list Z :=
  match xs with [] => [] | x :: r => previousValue (estep st x) :: reconCol (estep st x) r end.
Definition finCol (st : adpcmState) (xs : list Z) : adpcmState := fold_left estep xs st.

Lemma finCol_legal xs : forall st, legal st -> legal (finCol st xs).
Proof.
  induction xs as [|x xs IH]; intros st H; auto. cbn. apply IH.
  destruct (estep_spec st x H) as (_ & _ & _ & Hl & _). exact Hl.
Qed.

Lemma reconCol_length xs : forall st, length (reconCol st xs) = length xs.
Proof. induction xs as [|x xs IH]; intros st; cbn; auto. Qed.

(** ** Nibbles *)
Lemma nibbles lo hi : 0 <= lo < 16 -> 0 <= hi < 16 ->
  Z.land (Z.lor lo (Z.shiftl hi 4)) 15 = lo /\ Z.shiftr (Z.lor lo (Z.shiftl hi 4)) 4 = hi /\
  0 <= Z.lor lo (Z.shiftl hi 4) < 256.
Proof.
  intros Hl Hh. rewrite Z.shiftl_mul_pow2 by lia. rewrite lor_disjoint by (zpow; lia).
  change 15 with (Z.ones 4). rewrite Z.land_ones, Z.shiftr_div_pow2 by lia. zpow. lia.
Qed.

Definition ebytes (st : adpcmState) (xs : list Z) : list Z :=
  match encodePairs st xs with Ok (b, _) => b | _ => [] end.

Lemma pairs_lockstep n : forall xs st, length xs = (2 * n)%nat -> legal st ->
  encodePairs st xs = Ok (ebytes st xs, finCol st xs) /\
  decodePairs st (ebytes st xs) = Ok (reconCol st xs, finCol st xs) /\
  length (ebytes st xs) = n /\ bytes_ok (ebytes st xs) = true.
Proof.
  induction n as [|n IH]; intros xs st Hl Hst.
  - destruct xs; [|discriminate]. cbn. auto.
  - destruct xs as [|x [|y xs]]; try (cbn in Hl; lia).
    destruct (estep_spec st x Hst) as (lo & Ex & Hlo & Hst1 & Dx).
    destruct (estep_spec _ y Hst1) as (hi & Ey & Hhi & Hst2 & Dy).
    destruct (IH xs _ ltac:(cbn in Hl; lia) Hst2) as (E & D & L & B).
    assert (EB : ebytes st (x :: y :: xs) = Z.lor lo (Z.shiftl hi 4) :: ebytes (estep (estep st x) y) xs).
    { unfold ebytes at 1. cbn [encodePairs]. rewrite Ex. cbn [rbind]. rewrite Ey. cbn [rbind]. rewrite E. reflexivity. }
    rewrite EB. destruct (nibbles lo hi Hlo Hhi) as (N1 & N2 & N3).
    split; [|split; [|split]].
    + cbn [encodePairs]. rewrite Ex. cbn [rbind]. rewrite Ey. cbn [rbind]. rewrite E. reflexivity.
    + cbn [decodePairs]. rewrite N1, N2, Dx. cbn [rbind]. rewrite Dy. cbn [rbind]. rewrite D. reflexivity.
    + cbn. congruence.
    + cbn [bytes_ok forallb]. fold (bytes_ok (ebytes (estep (estep st x) y) xs)). rewrite B, andb_true_r.
      apply byte_ok_spec. exact N3.
Qed.

(** ** Columns *)
Definition colT (c : nat) (frames : list (list Z)) : list Z := map (fun f => nth c f 0) frames.

Lemma column_ok ch c frames : frames_of ch frames -> (c < ch)%nat -> column c frames = Ok (colT c frames).
Proof.
  intros Hf Hc. unfold column, colT. apply rmapM_Ok_map. intros f Hin.
  unfold frames_of in Hf. rewrite Forall_forall in Hf. specialize (Hf f Hin).
  unfold aget. destruct (Z.ltb_spec (Z.of_nat c) 0); [lia|]. rewrite Nat2Z.id.
  destruct (nth_error f c) eqn:E.
  - now rewrite (nth_error_nth f c 0 E).
  - apply nth_error_None in E. lia.
Qed.

Definition comb {A} (a : nat) (l : list A) : list (nat * A) := combine (seq a (length l)) l.

Lemma comb_cons {A} a (x : A) l : comb a (x :: l) = (a, x) :: comb (S a) l.
Proof. reflexivity. Qed.

Lemma in_comb {A} a (l : list A) k x : In (k, x) (comb a l) -> (a <= k < a + length l)%nat /\ In x l.
Proof.
  intros H. split; [|eapply in_combine_r; eauto]. apply in_combine_l in H. apply in_seq in H. lia.
Qed.

Lemma forChannels_ok {S A} (step : nat -> S -> res (A * S)) (g : nat -> S -> A) (h : nat -> S -> S) sts : forall a,
  (forall k st, In (k, st) (comb a sts) -> step k st = Ok (g k st, h k st)) ->
  forChannels step a sts = Ok (map (fun '(k, st) => g k st) (comb a sts), map (fun '(k, st) => h k st) (comb a sts)).
Proof.
  induction sts as [|st sts IH]; intros a H; [reflexivity|].
  rewrite comb_cons in *. cbn [forChannels map]. rewrite H by (left; auto). cbn [rbind].
  rewrite IH by (intros; apply H; right; auto). reflexivity.
Qed.

Lemma comb_map {A B} (f : nat * A -> B) l : forall a,
  comb a (map f (comb a l)) = map (fun '(k, x) => (k, f (k, x))) (comb a l).
Proof.
  induction l as [|x l IH]; intros a; [reflexivity|].
  rewrite comb_cons. cbn [map]. rewrite comb_cons. now rewrite IH.
Qed.

Lemma comb_length {A} a (l : list A) : length (comb a l) = length l.
Proof. unfold comb. rewrite combine_length, seq_length. lia. Qed.

Lemma frameStep_comb sts : forall f a, length f = length sts ->
  map (fun '(st, x) => estep st x) (combine sts f) =
  map (fun '(k, st) => estep st (nth (k - a) f 0)) (comb a sts).
Proof.
  induction sts as [|st sts IH]; intros [|x f] a H; try discriminate; [reflexivity|].
  rewrite comb_cons. cbn [combine map]. rewrite Nat.sub_diag. cbn [nth]. f_equal.
  rewrite (IH f (S a)) by (cbn in H; lia). apply map_ext_in. intros [k s] Hin.
  apply in_comb in Hin as [Hk _]. replace (k - a)%nat with (S (k - S a)) by lia. reflexivity.
Qed.

Lemma interleave_S n cols : (forall c, In c cols -> c <> []) ->
  interleave (S n) cols = map (fun c => hd 0 c) cols :: interleave n (map (@tl Z) cols).
Proof.
  intros H. unfold interleave. cbn [seq map]. f_equal.
  - apply map_ext_in. intros c Hc. destruct c; auto.
  - rewrite <- seq_shift, map_map. apply map_ext. intros k. rewrite map_map.
    apply map_ext_in. intros c Hc. specialize (H c Hc). destruct c; [congruence|reflexivity].
Qed.

Lemma recon_columns frames : forall sts, frames_of (length sts) frames ->
  interleave (length frames) (map (fun '(k, st) => reconCol st (colT k frames)) (comb 0 sts)) = reconFrames sts frames /\
  map (fun '(k, st) => finCol st (colT k frames)) (comb 0 sts) = finalStates sts frames.
Proof.
  induction frames as [|f frames IH]; intros sts H.
  - split; [reflexivity|]. cbn. rewrite <- (map_id sts) at 2. unfold comb.
    generalize 0%nat as a. clear H. induction sts; intros a'; cbn; [reflexivity|]. f_equal; auto.
  - inversion H as [|? ? Hf Hr]; subst.
    assert (E : frameStep sts f = map (fun '(k, st) => estep st (nth k f 0)) (comb 0 sts)).
    { unfold frameStep. rewrite (frameStep_comb sts f 0) by auto. apply map_ext. intros [k st]. now rewrite Nat.sub_0_r. }
    assert (Hlen : length (frameStep sts f) = length sts) by (rewrite E, map_length, comb_length; auto).
    destruct (IH (frameStep sts f)) as [I1 I2]. { rewrite Hlen. exact Hr. }
    assert (EC : comb 0 (frameStep sts f) = map (fun '(k, st) => (k, estep st (nth k f 0))) (comb 0 sts)).
    { rewrite E. rewrite (comb_map (fun '(k, st) => estep st (nth k f 0))). apply map_ext. intros [k st]; reflexivity. }
    rewrite EC in I1, I2. rewrite map_map in I1, I2. split.
    + cbn [length]. rewrite interleave_S.
      2:{ intros c Hc. apply in_map_iff in Hc as ([k st] & <- & _). discriminate. }
      cbn [reconFrames]. rewrite !map_map. f_equal.
      * rewrite E, map_map. apply map_ext. intros [k st]. reflexivity.
      * rewrite <- I1. f_equal. apply map_ext. intros [k st]. reflexivity.
    + cbn [finalStates fold_left]. unfold finalStates in I2. rewrite <- I2. apply map_ext. intros [k st]. reflexivity.
Qed.

Lemma frameStep_length sts f : length f = length sts -> length (frameStep sts f) = length sts.
Proof. intros H. unfold frameStep. rewrite map_length, combine_length. lia. Qed.
Lemma finalStates_length frames : forall sts, frames_of (length sts) frames -> length (finalStates sts frames) = length sts.
Proof.
  induction frames as [|f fr IH]; intros sts H; [reflexivity|]. inversion H; subst. cbn.
  unfold finalStates in IH. rewrite IH; [apply frameStep_length; auto|]. rewrite frameStep_length; auto.
Qed.
Lemma frameStep_legal sts f : Forall legal sts -> Forall legal (frameStep sts f).
Proof.
  intros H. unfold frameStep. apply Forall_map. apply Forall_forall. intros [st x] Hin.
  apply in_combine_l in Hin. rewrite Forall_forall in H. destruct (estep_spec st x (H st Hin)) as (_ & _ & _ & L & _). exact L.
Qed.
Lemma finalStates_legal frames : forall sts, Forall legal sts -> Forall legal (finalStates sts frames).
Proof. induction frames as [|f fr IH]; intros sts H; auto. cbn. apply IH, frameStep_legal, H. Qed.
Lemma reconFrames_app a : forall sts b, reconFrames sts (a ++ b) = reconFrames sts a ++ reconFrames (finalStates sts a) b.
Proof. induction a as [|f a IH]; intros sts b; [reflexivity|]. cbn. f_equal. apply IH. Qed.
Lemma finalStates_app a sts b : finalStates sts (a ++ b) = finalStates (finalStates sts a) b.
Proof. apply fold_left_app. Qed.
Lemma reconFrames_length frames : forall sts, length (reconFrames sts frames) = length frames.
Proof. induction frames as [|f fr IH]; intros sts; cbn; auto. Qed.
Lemma frames_of_firstn ch n frames : frames_of ch frames -> frames_of ch (firstn n frames).
Proof. unfold frames_of. rewrite !Forall_forall. intros H x Hx. apply H. rewrite <- (firstn_skipn n frames). apply in_or_app; auto. Qed.
Lemma frames_of_skipn ch n frames : frames_of ch frames -> frames_of ch (skipn n frames).
Proof. unfold frames_of. rewrite !Forall_forall. intros H x Hx. apply H. rewrite <- (firstn_skipn n frames). apply in_or_app; auto. Qed.

(** ** WAVE groups *)
Lemma colT_length c frames : length (colT c frames) = length frames.
Proof. apply map_length. Qed.

Definition groupBytes (sts : list adpcmState) (frames : list (list Z)) : list Z :=
  concat (map (fun '(k, st) => ebytes st (colT k frames)) (comb 0 sts)).

Lemma decodeGroup_ok frames sts : forall a rest, length frames = 8%nat -> Forall legal sts ->
  decodeGroup sts (concat (map (fun '(k, st) => ebytes st (colT k frames)) (comb a sts)) ++ rest) =
  Ok (map (fun '(k, st) => reconCol st (colT k frames)) (comb a sts),
      map (fun '(k, st) => finCol st (colT k frames)) (comb a sts), rest).
Proof.
  induction sts as [|st sts IH]; intros a rest Hl Hf; [reflexivity|].
  inversion Hf; subst. rewrite comb_cons. cbn [map concat decodeGroup].
  destruct (pairs_lockstep 4 (colT a frames) st) as (E & D & L & B); [rewrite colT_length; lia|auto|].
  rewrite <- app_assoc.
  assert (Hlt : (length (ebytes st (colT a frames) ++ (concat (map (fun '(k, st0) => ebytes st0 (colT k frames)) (comb (S a) sts)) ++ rest)) <? 4)%nat = false).
  { apply Nat.ltb_ge. rewrite app_length. lia. }
  rewrite Hlt. rewrite firstn_exact, skipn_exact by auto. rewrite D. cbn [rbind].
  rewrite IH by auto. reflexivity.
Qed.

Lemma group_len g sts : forall a, Forall legal sts -> length g = 8%nat ->
  length (concat (map (fun '(k, st) => ebytes st (colT k g)) (comb a sts))) = (4 * length sts)%nat /\
  bytes_ok (concat (map (fun '(k, st) => ebytes st (colT k g)) (comb a sts))) = true.
Proof.
  induction sts as [|st sts IH]; intros a Hs Hg; [split; reflexivity|].
  inversion Hs; subst. rewrite comb_cons. cbn [map concat]. destruct (IH (S a)) as [I1 I2]; auto.
  destruct (pairs_lockstep 4 (colT a g) st) as (_ & _ & L & B); [rewrite colT_length; lia|auto|].
  split; [rewrite app_length, I1, L; cbn [length]; lia|]. now rewrite bytes_ok_app, B, I2.
Qed.

Lemma groups_lockstep n : forall sts frames rest, Forall legal sts -> frames_of (length sts) frames ->
  (8 * n <= length frames)%nat ->
  exists bytes, encodeGroupsWAVE n sts frames = Ok (bytes, finalStates sts (firstn (8 * n) frames)) /\
    decodeGroupsWAVE n sts (bytes ++ rest) =
      Ok (reconFrames sts (firstn (8 * n) frames), finalStates sts (firstn (8 * n) frames)) /\
    length bytes = (n * (4 * length sts))%nat /\ bytes_ok bytes = true.
Proof.
  induction n as [|n IH]; intros sts frames rest Hs Hf Hl.
  - exists []. cbn. auto.
  - cbn [encodeGroupsWAVE]. replace (length frames <? 8)%nat with false by (symmetry; apply Nat.ltb_ge; lia).
    set (g := firstn 8 frames). assert (Hg : length g = 8%nat) by (unfold g; rewrite firstn_length; lia).
    assert (Hfg : frames_of (length sts) g) by now apply frames_of_firstn.
    rewrite (forChannels_ok _ (fun k st => ebytes st (colT k g)) (fun k st => finCol st (colT k g))).
    2:{ intros k st Hin. apply in_comb in Hin as [Hk Hin]. rewrite (column_ok (length sts)) by (auto; lia). cbn [rbind].
        rewrite Forall_forall in Hs. apply (pairs_lockstep 4); [rewrite colT_length; lia|auto]. }
    cbn [rbind]. destruct (recon_columns g sts Hfg) as [R1 R2]. rewrite R2.
    destruct (IH (finalStates sts g) (skipn 8 frames) rest) as (bytes & E & D & L & B).
    { now apply finalStates_legal. }
    { rewrite finalStates_length by auto. now apply frames_of_skipn. }
    { rewrite skipn_length. lia. }
    rewrite E. cbn [rbind].
    assert (ES : firstn (8 * S n) frames = g ++ firstn (8 * n) (skipn 8 frames)).
    { unfold g. replace (8 * S n)%nat with (8 + 8 * n)%nat by lia.
      rewrite <- (firstn_skipn 8 frames) at 1. rewrite firstn_app, firstn_length.
      rewrite firstn_firstn. replace (min (8 + 8 * n) 8) with 8%nat by lia. f_equal. f_equal. lia. }
    eexists; split; [|split; [|split]].
    + rewrite ES, finalStates_app. reflexivity.
    + cbn [decodeGroupsWAVE]. rewrite <- app_assoc. rewrite decodeGroup_ok by auto. cbn [rbind].
      rewrite R2, D. cbn [rbind]. rewrite Hg in R1. rewrite R1, ES, reconFrames_app, finalStates_app. reflexivity.
    + rewrite app_length, L, finalStates_length by auto.
      rewrite (proj1 (group_len g sts 0 Hs Hg)). lia.
    + rewrite bytes_ok_app, B, andb_true_r. exact (proj2 (group_len g sts 0 Hs Hg)).
Qed.

(** ** WAVE headers *)
Lemma headerWAVE_decode st rest : legal st ->
  exists e0 e1 e2 e3, headerWAVE st = [e0; e1; e2; e3] /\ bytes_ok [e0; e1; e2; e3] = true /\
    (let p := Z.lor (Z.shiftl e1 8) e0 in
     let p := if Z.testbit e1 7 then p - 65536 else p in mkState p e2 = st) /\
    decodeHeadersWAVE 0 rest = Ok ([], rest).
Proof.
  intros [Hp Hi]. destruct st as [p i]. cbn [previousValue index] in *. unfold headerWAVE. cbn [previousValue index].
  change 255 with (Z.ones 8). rewrite Z.land_ones by lia. rewrite Z.shiftr_div_pow2 by lia.
  unfold u8, uN. eexists _, _, _, _. split; [reflexivity|]. split; [|split; [|reflexivity]].
  - cbn [bytes_ok forallb]. unfold byte_ok. zpow. lia.
  - cbv zeta. rewrite Z.shiftl_mul_pow2 by lia. rewrite lor_disjoint' by (zpow; lia).
    assert (T : Z.testbit ((p / 2 ^ 8) mod 2 ^ 8) 7 = (p <? 0)).
    { rewrite Z.testbit_eqb by lia. zpow. lia. }
    rewrite T. f_equal.
    + destruct (Z.ltb_spec p 0); zpow; lia.
    + zpow; lia.
Qed.

Lemma headersWAVE_decode sts : forall rest, Forall legal sts ->
  decodeHeadersWAVE (length sts) (concat (map headerWAVE sts) ++ rest) = Ok (sts, rest) /\
  length (concat (map headerWAVE sts)) = (4 * length sts)%nat /\ bytes_ok (concat (map headerWAVE sts)) = true.
Proof.
  induction sts as [|st sts IH]; intros rest H; [auto|]. inversion H; subst.
  destruct (headerWAVE_decode st [] ltac:(auto)) as (e0 & e1 & e2 & e3 & E & B & D & _).
  cbn [map concat length decodeHeadersWAVE]. rewrite E. cbn [app].
  destruct (IH rest ltac:(auto)) as (I1 & I2 & I3).
  rewrite I1. cbn [rbind]. cbv zeta in D. split; [|split].
  - do 2 f_equal. f_equal. exact D.
  - cbn [length]. rewrite I2. lia.
  - change (e0 :: e1 :: e2 :: e3 :: concat (map headerWAVE sts)) with ([e0; e1; e2; e3] ++ concat (map headerWAVE sts)).
    rewrite bytes_ok_app, B, I3. reflexivity.
Qed.

Lemma groupsWAVE_exact n : groupsWAVE (8 * Z.of_nat n + 1) = n.
Proof. unfold groupsWAVE. lia. Qed.

Lemma blockWAVE_lockstep n sts frames rest : Forall legal sts -> frames_of (length sts) frames ->
  (8 * n <= length frames)%nat ->
  exists bytes, encodeBlockWAVE (8 * Z.of_nat n + 1) sts frames = Ok (bytes, finalStates sts (firstn (8 * n) frames)) /\
    decodeBlockWAVE (8 * Z.of_nat n + 1) (length sts) (bytes ++ rest) =
      Ok (map previousValue sts :: reconFrames sts (firstn (8 * n) frames), finalStates sts (firstn (8 * n) frames)) /\
    length bytes = (4 * length sts * (n + 1))%nat /\ bytes_ok bytes = true.
Proof.
  intros Hs Hf Hl. unfold encodeBlockWAVE, decodeBlockWAVE. rewrite groupsWAVE_exact.
  destruct (groups_lockstep n sts frames rest Hs Hf Hl) as (bytes & E & D & L & B).
  rewrite E. cbn [rbind]. eexists; split; [reflexivity|].
  rewrite <- app_assoc. destruct (headersWAVE_decode sts (bytes ++ rest) Hs) as (H1 & H2 & H3).
  rewrite H1. cbn [rbind]. rewrite D. cbn [rbind]. split; [|split].
  - unfold zlen. cbn [length]. rewrite reconFrames_length, firstn_length.
    rewrite Z.gtb_ltb. destruct (Z.ltb_spec (8 * Z.of_nat n + 1) (Z.of_nat (S (min (8 * n) (length frames))))); [lia|reflexivity].
  - rewrite app_length, H2, L. lia.
  - now rewrite bytes_ok_app, H3, B.
Qed.

(** ** QuickTime *)
Lemma land_not127 p : Z.land p (Z.lnot 127) = 128 * (p / 128).
Proof.
  change 127 with (Z.ones 7). rewrite <- Z.ldiff_land, Z.ldiff_ones_r by lia.
  rewrite Z.shiftl_mul_pow2, Z.shiftr_div_pow2 by lia. zpow. lia.
Qed.

Lemma roundQT_legal st : legal st -> legal (roundQT st).
Proof. intros [Hp Hi]. split; cbn [roundQT previousValue index]; lia. Qed.

Lemma land128 x : Z.land x 128 = 128 * ((x / 128) mod 2).
Proof.
  apply Z.bits_inj'. intros n Hn. rewrite Z.land_spec.
  change (Z.testbit 128 n) with (Z.testbit (2 ^ 7) n).
  replace (128 * ((x / 128) mod 2)) with (((x / 128) mod 2) * 2 ^ 7) by (zpow; lia).
  rewrite Z.pow2_bits_eqb by lia.
  destruct (Z_lt_le_dec n 7).
  - rewrite Z.mul_pow2_bits_low by lia. destruct (Z.eqb_spec 7 n); [lia|]. apply andb_false_r.
  - rewrite Z.mul_pow2_bits by lia. destruct (Z.eqb_spec 7 n).
    + subst n. rewrite Z.sub_diag, andb_true_r, Z.bit0_odd, Z.testbit_eqb by lia. zpow.
      rewrite (Zmod_odd (x / 128)). destruct (Z.odd (x / 128)); reflexivity.
    + rewrite andb_false_r. symmetry. rewrite (Z.testbit_eqb _ (n - 7)) by lia.
      rewrite Z.div_small; [reflexivity|]. assert (2 ^ 1 <= 2 ^ (n - 7)) by (apply Z.pow_le_mono_r; lia). lia.
Qed.

Lemma encodeChannelQT_ok m ch frames c st : legal st -> frames_of ch frames -> (c < ch)%nat -> length frames = (2 * m)%nat ->
  exists h0 h1, encodeChannelQT (2 * Z.of_nat m) frames c st =
     Ok (h0 :: h1 :: ebytes (roundQT st) (colT c frames), finCol (roundQT st) (colT c frames)) /\
   0 <= h0 < 256 /\ 0 <= h1 < 256 /\
   (let p := Z.lor (Z.shiftl h0 8) (Z.land h1 128) in
    let p := if Z.testbit p 15 then p - 65536 else p in mkState (clamp16 p) (Z.land h1 127) = roundQT st).
Proof.
  intros Hst Hf Hc Hl. unfold encodeChannelQT.
  change (mkState (Z.land (previousValue st) (Z.lnot 127)) (index st)) with
    (mkState (Z.land (previousValue st) (Z.lnot 127)) (index st)). rewrite land_not127.
  fold (roundQT st). pose proof (roundQT_legal st Hst) as Hr.
  unfold zlen. rewrite Hl. replace (Z.of_nat (2 * m) <? 2 * Z.of_nat m) with false by lia.
  rewrite zfirstn_all by (unfold zlen; lia). rewrite (column_ok ch) by auto. cbn [rbind].
  destruct (pairs_lockstep m (colT c frames) (roundQT st)) as (E & D & L & B); [rewrite colT_length; lia|auto|].
  rewrite E. cbn [rbind app]. eexists _, _. split; [reflexivity|].
  destruct st as [p i]. destruct Hst as [Hp Hi]. unfold roundQT. cbn [previousValue index] in *.
  set (q := p / 128). assert (Hq : -256 <= q <= 255) by (unfold q; lia). clearbody q. clear - Hq Hi.
  rewrite land128. change 255 with (Z.ones 8). change 127 with (Z.ones 7). rewrite !Z.land_ones by lia.
  rewrite Z.shiftr_div_pow2 by lia.
  replace (Z.lor (128 * ((128 * q / 128) mod 2)) (i mod 2 ^ 7)) with (i + 128 * (q mod 2)).
  2:{ replace (128 * ((128 * q / 128) mod 2)) with ((q mod 2) * 2 ^ 7) by (zpow; lia).
      rewrite lor_disjoint' by (zpow; lia). zpow; lia. }
  split; [zpow; lia|]. split; [lia|]. cbv zeta.
  rewrite land128. replace (((i + 128 * (q mod 2)) / 128) mod 2) with (q mod 2) by lia.
  rewrite Z.shiftl_mul_pow2 by lia. rewrite lor_disjoint' by (zpow; lia).
  set (P := 128 * (q mod 2) + _). assert (HP : P = (128 * q) mod 65536) by (unfold P; zpow; lia). clearbody P.
  assert (T : Z.testbit P 15 = (q <? 0)). { rewrite Z.testbit_eqb by lia. zpow. lia. }
  rewrite T. f_equal.
  - unfold clamp16. destruct (Z.ltb_spec q 0); rewrite clamp_id by lia; lia.
  - zpow. lia.
Qed.

Definition qtBytes (m : nat) (frames : list (list Z)) (k : nat) (st : adpcmState) : list Z :=
  match encodeChannelQT (2 * Z.of_nat m) frames k st with Ok (b, _) => b | _ => [] end.

Lemma qtBytes_spec m ch frames c st : legal st -> frames_of ch frames -> (c < ch)%nat -> length frames = (2 * m)%nat ->
  encodeChannelQT (2 * Z.of_nat m) frames c st = Ok (qtBytes m frames c st, finCol (roundQT st) (colT c frames)) /\
  length (qtBytes m frames c st) = (m + 2)%nat /\ bytes_ok (qtBytes m frames c st) = true /\
  forall rest, decodeChannelQT (2 * Z.of_nat m) (qtBytes m frames c st ++ rest) =
    Ok (reconCol (roundQT st) (colT c frames), finCol (roundQT st) (colT c frames), rest).
Proof.
  intros Hst Hf Hc Hl. destruct (encodeChannelQT_ok m ch frames c st Hst Hf Hc Hl) as (h0 & h1 & E & B0 & B1 & D).
  unfold qtBytes. rewrite E.
  destruct (pairs_lockstep m (colT c frames) (roundQT st)) as (E' & D' & L & B);
    [rewrite colT_length; lia|now apply roundQT_legal|].
  split; [reflexivity|]. split; [cbn; lia|]. split.
  { cbn [bytes_ok forallb]. fold (bytes_ok (ebytes (roundQT st) (colT c frames))). rewrite B. unfold byte_ok. lia. }
  intros rest. cbn [app decodeChannelQT]. cbv zeta in D. rewrite D.
  replace ((2 * Z.of_nat m + 1) / 2) with (zlen (ebytes (roundQT st) (colT c frames))) by (unfold zlen; lia).
  rewrite zlen_app. pose proof (zlen_nonneg rest).
  replace (zlen (ebytes (roundQT st) (colT c frames)) + zlen rest <? zlen (ebytes (roundQT st) (colT c frames))) with false by lia.
  rewrite zfirstn_exact, zskipn_exact, D'. reflexivity.
Qed.

Lemma channelsQT_decode m ch frames sts : forall a rest, Forall legal sts -> frames_of ch frames ->
  (a + length sts <= ch)%nat -> length frames = (2 * m)%nat ->
  decodeChannelsQT (2 * Z.of_nat m) (length sts)
    (concat (map (fun '(k, st) => qtBytes m frames k st) (comb a sts)) ++ rest) =
  Ok (map (fun '(k, st) => reconCol (roundQT st) (colT k frames)) (comb a sts),
      map (fun '(k, st) => finCol (roundQT st) (colT k frames)) (comb a sts)) /\
  length (concat (map (fun '(k, st) => qtBytes m frames k st) (comb a sts))) = ((m + 2) * length sts)%nat /\
  bytes_ok (concat (map (fun '(k, st) => qtBytes m frames k st) (comb a sts))) = true.
Proof.
  induction sts as [|st sts IH]; intros a rest Hs Hf Ha Hl; [cbn; auto|].
  inversion Hs; subst. rewrite comb_cons. cbn [map concat length decodeChannelsQT].
  cbn [length] in Ha. destruct (qtBytes_spec m ch frames a st) as (_ & L & B & D); auto; [lia|].
  rewrite <- app_assoc, D. cbn [rbind].
  destruct (IH (S a) rest) as (I1 & I2 & I3); auto; [lia|].
  rewrite I1. cbn [rbind]. split; [reflexivity|]. split.
  - rewrite app_length, L, I2. lia.
  - now rewrite bytes_ok_app, B, I3.
Qed.

Lemma comb_map_id {A B} (f : A -> B) l : forall a, comb a (map f l) = map (fun '(k, x) => (k, f x)) (comb a l).
Proof. induction l as [|x l IH]; intros a; [reflexivity|]. cbn [map]. rewrite !comb_cons. cbn [map]. now rewrite IH. Qed.

Lemma blockQT_lockstep m sts frames rest : Forall legal sts -> frames_of (length sts) frames ->
  length frames = (2 * m)%nat ->
  exists bytes, encodeBlockQT (2 * Z.of_nat m) sts frames = Ok (bytes, finalStates (map roundQT sts) frames) /\
    decodeBlockQT (2 * Z.of_nat m) (length sts) (bytes ++ rest) =
      Ok (reconFrames (map roundQT sts) frames, finalStates (map roundQT sts) frames) /\
    length bytes = ((m + 2) * length sts)%nat /\ bytes_ok bytes = true.
Proof.
  intros Hs Hf Hl. unfold encodeBlockQT, decodeBlockQT.
  rewrite (forChannels_ok _ (qtBytes m frames) (fun k st => finCol (roundQT st) (colT k frames))).
  2:{ intros k st Hin. apply in_comb in Hin as [Hk Hin]. rewrite Forall_forall in Hs.
      apply (qtBytes_spec m (length sts)); auto. lia. }
  cbn [rbind].
  destruct (channelsQT_decode m (length sts) frames sts 0 rest) as (D & L & B); auto.
  destruct (recon_columns frames (map roundQT sts)) as [R1 R2]. { now rewrite map_length. }
  rewrite comb_map_id, map_map in R1, R2.
  assert (EF : map (fun '(k, st) => finCol (roundQT st) (colT k frames)) (comb 0 sts) = finalStates (map roundQT sts) frames).
  { rewrite <- R2. apply map_ext. intros [k st]; reflexivity. }
  assert (ER : map (fun '(k, st) => reconCol (roundQT st) (colT k frames)) (comb 0 sts) =
     map (fun x => let '(k, st) := let '(k, x0) := x in (k, roundQT x0) in reconCol st (colT k frames)) (comb 0 sts)).
  { apply map_ext. intros [k st]; reflexivity. }
  eexists; split; [rewrite EF; reflexivity|]. rewrite D. cbn [rbind]. split; [|auto].
  rewrite EF, ER. replace (Z.to_nat (2 * Z.of_nat m)) with (length frames) by lia. now rewrite R1.
Qed.

(** ** Streams of QuickTime blocks *)
Lemma streamQT_lockstep m n : forall sts frames rest, Forall legal sts -> frames_of (length sts) frames ->
  length frames = (n * (2 * m))%nat ->
  exists bytes sts', encodeBlocks (encodeBlockQT (2 * Z.of_nat m)) (2 * m) n sts frames = Ok (bytes, sts') /\
    Forall legal sts' /\
    decodeBlocks (fun b => rmap fst (decodeBlockQT (2 * Z.of_nat m) (length sts) b)) ((m + 2) * length sts) n (bytes ++ rest) =
      Ok (reconStreamQT (2 * m) n sts frames) /\
    length bytes = (n * ((m + 2) * length sts))%nat.
Proof.
  induction n as [|n IH]; intros sts frames rest Hs Hf Hl.
  - exists [], sts. cbn. auto.
  - cbn [encodeBlocks decodeBlocks reconStreamQT]. set (g := firstn (2 * m) frames).
    assert (Hg : length g = (2 * m)%nat) by (unfold g; rewrite firstn_length; lia).
    assert (Hfg : frames_of (length sts) g) by now apply frames_of_firstn.
    destruct (blockQT_lockstep m sts g [] Hs Hfg Hg) as (b & E & D & L & B).
    assert (Hr : Forall legal (map roundQT sts)).
    { apply Forall_map. eapply Forall_impl; [|exact Hs]. intros; now apply roundQT_legal. }
    assert (Hlen : length (finalStates (map roundQT sts) g) = length sts).
    { rewrite finalStates_length; rewrite map_length; auto. }
    destruct (IH (finalStates (map roundQT sts) g) (skipn (2 * m) frames) rest) as (bs & sts' & E' & Hs' & D' & L').
    { now apply finalStates_legal. } { rewrite Hlen. now apply frames_of_skipn. } { rewrite skipn_length. lia. }
    rewrite Hlen in D', L'.
    exists (b ++ bs), sts'. rewrite E. cbn [rbind]. rewrite E'. cbn [rbind]. split; [reflexivity|]. split; [exact Hs'|]. split.
    + rewrite <- app_assoc, firstn_exact, skipn_exact by auto. rewrite app_nil_r in D. rewrite D. unfold rmap at 1. cbn [rbind fst].
      rewrite D'. reflexivity.
    + rewrite app_length. lia.
Qed.

(** ** Decoding arbitrary codes *)
Lemma decodeCodes_ok codes : forall st, legal st -> Forall (fun c => 0 <= c < 16) codes ->
  exists l st', decodeCodes st codes = Ok (l, st') /\ legal st' /\ length l = length codes /\
    Forall (fun x => -32768 <= x <= 32767) l.
Proof.
  induction codes as [|c codes IH]; intros st Hst Hc.
  - exists [], st. cbn. auto.
  - inversion Hc; subst. destruct (decodeSample_ok st c (proj2 Hst) ltac:(auto)) as (st1 & E & L1).
    destruct (IH st1 L1 ltac:(auto)) as (l & st' & E' & L' & Hl & Hf).
    exists (previousValue st1 :: l), st'. cbn [decodeCodes]. rewrite E. cbn [rbind]. rewrite E'. cbn.
    repeat split; auto; try apply L'. constructor; auto. apply L1.
Qed.

Lemma byte_nibbles b : 0 <= b < 256 -> 0 <= Z.land b 15 < 16 /\ 0 <= Z.shiftr b 4 < 16.
Proof. intros. change 15 with (Z.ones 4). rewrite Z.land_ones, Z.shiftr_div_pow2 by lia. zpow. lia. Qed.

Lemma decodePairs_ok bytes : forall st, 0 <= index st <= 88 -> bytes_ok bytes = true ->
  exists l st', decodePairs st bytes = Ok (l, st') /\ 0 <= index st' <= 88 /\ length l = (2 * length bytes)%nat /\
    Forall (fun x => -32768 <= x <= 32767) l.
Proof.
  induction bytes as [|b bytes IH]; intros st Hst Hb.
  - exists [], st. cbn. auto.
  - cbn in Hb. apply andb_true_iff in Hb as [Hb Hbs]. apply byte_ok_spec in Hb.
    destruct (byte_nibbles b Hb) as [N1 N2].
    destruct (decodeSample_ok st _ Hst N1) as (st1 & E1 & L1).
    destruct (decodeSample_ok st1 _ (proj2 L1) N2) as (st2 & E2 & L2).
    destruct (IH st2 (proj2 L2) Hbs) as (l & st' & E' & L' & Hl & Hf).
    exists (previousValue st1 :: previousValue st2 :: l), st'. cbn [decodePairs]. rewrite E1. cbn [rbind]. rewrite E2. cbn [rbind].
    rewrite E'. cbn [rbind]. repeat split; auto; try lia.
    + cbn [length]. lia.
    + constructor; [apply L1|constructor; [apply L2|auto]].
Qed.

(** ** Quantisation error of one sample *)
Lemma encode_error st x step : legal st -> -32768 <= x <= 32767 -> aget stepTable (index st) = Ok step ->
  Z.abs (x - previousValue st) < 2 * step ->
  Z.abs (x - previousValue (estep st x)) <= step / 8 + 2.
Proof.
  intros [Hp Hi] Hx Hs Hd. destruct (aget_step _ Hi) as (s' & E' & Hr). rewrite Hs in E'. inversion E'; subst s'.
  unfold estep, encodeSample. rewrite Hs. cbn [rbind]. rewrite shr1_1. rewrite !Z.shiftr_div_pow2 by lia.
  change (2 ^ 1) with 2. change (2 ^ 2) with 4. change (2 ^ 3) with 8.
  assert (Hcl : forall v, Z.abs (x - clamp16 v) <= Z.abs (x - v)).
  { intros v. unfold clamp16, clamp. destruct (Z.ltb_spec v (-32768)); [lia|]. rewrite Z.gtb_ltb. destruct (Z.ltb_spec 32767 v); lia. }
  destruct (Z.ltb_spec (x - previousValue st) 0);
  match goal with |- context [?d >=? step] => rewrite (Z.geb_leb d step); destruct (Z.leb_spec step d) end;
  match goal with |- context [?d >=? step / 2] => rewrite (Z.geb_leb d (step / 2)); destruct (Z.leb_spec (step / 2) d) end;
  match goal with |- context [?d >=? step / 4] => rewrite (Z.geb_leb d (step / 4)); destruct (Z.leb_spec (step / 4) d) end;
  (match goal with |- context [aget indexTable ?c] =>
     let v := eval vm_compute in c in change c with v end);
  (match goal with |- context [aget indexTable ?c] =>
     let a := eval vm_compute in (aget indexTable c) in change (aget indexTable c) with a end);
  repeat match goal with |- context [Z.testbit ?c ?k] => 
     let v := eval vm_compute in (Z.testbit c k) in change (Z.testbit c k) with v end;
  cbn [rbind previousValue]; (eapply Z.le_trans; [apply Hcl|]); lia.
Qed.

Lemma encodeGroups_prefix n : forall sts frames extra, (8 * n <= length frames)%nat ->
  encodeGroupsWAVE n sts (frames ++ extra) = encodeGroupsWAVE n sts frames.
Proof.
  induction n as [|n IH]; intros sts frames extra H; [reflexivity|].
  cbn [encodeGroupsWAVE]. rewrite app_length.
  replace (length frames + length extra <? 8)%nat with false by (symmetry; apply Nat.ltb_ge; lia).
  replace (length frames <? 8)%nat with false by (symmetry; apply Nat.ltb_ge; lia).
  rewrite firstn_app, skipn_app. replace (8 - length frames)%nat with 0%nat by lia.
  rewrite firstn_O, skipn_O, app_nil_r.
  destruct (forChannels _ 0 sts) as [[gs sts']| | |]; cbn [rbind]; auto.
  rewrite IH by (rewrite skipn_length; lia). reflexivity.
Qed.

Lemma decodeHeaders_safe ch : forall encoded, bytes_ok encoded = true -> (4 * ch <= length encoded)%nat ->
  (forall c, (c < ch)%nat -> nth (4 * c + 2) encoded 0 <= 88) ->
  exists sts, decodeHeadersWAVE ch encoded = Ok (sts, skipn (4 * ch) encoded) /\ length sts = ch /\
    Forall (fun st => 0 <= index st <= 88) sts.
Proof.
  induction ch as [|ch IH]; intros encoded Hb Hl Hi.
  - exists []. cbn. auto.
  - destruct encoded as [|e0 [|e1 [|e2 [|e3 rest]]]]; try (cbn in Hl; lia).
    cbn in Hb. repeat (apply andb_true_iff in Hb as [? Hb]).
    destruct (IH rest) as (sts & E & L & F).
    { exact Hb. } { cbn in Hl. lia. }
    { intros c Hc. specialize (Hi (S c) ltac:(lia)). replace (4 * S c + 2)%nat with (4 + (4 * c + 2))%nat in Hi by lia. exact Hi. }
    cbn [decodeHeadersWAVE]. rewrite E. cbn [rbind]. eexists. split.
    + replace (4 * S ch)%nat with (4 + 4 * ch)%nat by lia. cbn [plus skipn]. reflexivity.
    + split; [cbn; lia|]. constructor; auto. cbn [index]. specialize (Hi 0%nat ltac:(lia)). cbn in Hi.
      unfold byte_ok in *. lia.
Qed.

Lemma bytes_ok_firstn n l : bytes_ok l = true -> bytes_ok (firstn n l) = true.
Proof. intros H. rewrite <- (firstn_skipn n l), bytes_ok_app in H. now apply andb_true_iff in H as [-> _]. Qed.
Lemma bytes_ok_skipn n l : bytes_ok l = true -> bytes_ok (skipn n l) = true.
Proof. intros H. rewrite <- (firstn_skipn n l), bytes_ok_app in H. now apply andb_true_iff in H as [_ ->]. Qed.

Lemma decodeGroup_safe sts : forall encoded, bytes_ok encoded = true -> (4 * length sts <= length encoded)%nat ->
  Forall (fun st => 0 <= index st <= 88) sts ->
  exists cols sts', decodeGroup sts encoded = Ok (cols, sts', skipn (4 * length sts) encoded) /\
    length cols = length sts /\ length sts' = length sts /\ Forall (fun st => 0 <= index st <= 88) sts'.
Proof.
  induction sts as [|st sts IH]; intros encoded Hb Hl Hi.
  - exists [], []. cbn. auto.
  - inversion Hi; subst. cbn [decodeGroup length] in *.
    replace (length encoded <? 4)%nat with false by (symmetry; apply Nat.ltb_ge; lia).
    destruct (decodePairs_ok (firstn 4 encoded) st ltac:(auto) ltac:(now apply bytes_ok_firstn)) as (l & st' & E & L & _).
    rewrite E. cbn [rbind].
    destruct (IH (skipn 4 encoded)) as (cols & sts' & E' & L1 & L2 & F).
    { now apply bytes_ok_skipn. } { rewrite skipn_length. lia. } { auto. }
    rewrite E'. cbn [rbind]. rewrite skipn_skipn_nat. replace (4 * S (length sts))%nat with (4 + 4 * length sts)%nat by lia.
    eexists _, _. split; [reflexivity|]. cbn. auto.
Qed.

Lemma interleave_frames n cols : frames_of (length cols) (interleave n cols).
Proof. unfold frames_of, interleave. apply Forall_map. apply Forall_forall. intros. apply map_length. Qed.
Lemma interleave_length n cols : length (interleave n cols) = n.
Proof. unfold interleave. now rewrite map_length, seq_length. Qed.

Lemma decodeGroups_safe n : forall sts encoded, bytes_ok encoded = true -> (n * (4 * length sts) <= length encoded)%nat ->
  Forall (fun st => 0 <= index st <= 88) sts ->
  exists frames sts', decodeGroupsWAVE n sts encoded = Ok (frames, sts') /\ length frames = (8 * n)%nat /\
    frames_of (length sts) frames.
Proof.
  induction n as [|n IH]; intros sts encoded Hb Hl Hi.
  - exists [], sts. cbn. repeat split; constructor.
  - cbn [decodeGroupsWAVE]. destruct (decodeGroup_safe sts encoded Hb ltac:(lia) Hi) as (cols & sts1 & E & L1 & L2 & F).
    rewrite E. cbn [rbind]. destruct (IH sts1 (skipn (4 * length sts) encoded)) as (fr & sts' & E' & L' & F').
    { now apply bytes_ok_skipn. } { rewrite skipn_length. rewrite L2. lia. } { auto. }
    rewrite E'. cbn [rbind]. eexists _, _. split; [reflexivity|]. rewrite app_length, interleave_length, L'. split; [lia|].
    apply Forall_app. split; [rewrite <- L1; apply interleave_frames|rewrite <- L2; exact F'].
Qed.

Lemma decodeBlockWAVE_safe n ch encoded : bytes_ok encoded = true -> (4 * ch * (n + 1) <= length encoded)%nat ->
  (forall c, (c < ch)%nat -> nth (4 * c + 2) encoded 0 <= 88) ->
  exists frames sts, decodeBlockWAVE (8 * Z.of_nat n + 1) ch encoded = Ok (frames, sts) /\
    length frames = (8 * n + 1)%nat /\ Forall (fun f => length f = ch) frames.
Proof.
  intros Hb Hl Hi. unfold decodeBlockWAVE. rewrite groupsWAVE_exact.
  destruct (decodeHeaders_safe ch encoded Hb ltac:(lia) Hi) as (sts & E & L & F). rewrite E. cbn [rbind].
  destruct (decodeGroups_safe n sts (skipn (4 * ch) encoded)) as (fr & sts' & E' & L' & F').
  { now apply bytes_ok_skipn. } { rewrite skipn_length, L. lia. } { auto. }
  rewrite E'. cbn [rbind]. unfold zlen. cbn [length]. rewrite L'.
  replace (Z.of_nat (S (8 * n)) >? 8 * Z.of_nat n + 1) with false by lia.
  eexists _, _. split; [reflexivity|]. split; [cbn [length]; lia|]. constructor; [rewrite map_length; auto|].
  rewrite <- L. exact F'.
Qed.

Lemma decodeChannelsQT_safe m ch : forall encoded, bytes_ok encoded = true -> ((m + 2) * ch <= length encoded)%nat ->
  (forall c, (c < ch)%nat -> Z.land (nth ((m + 2) * c + 1) encoded 0) 127 <= 88) ->
  exists cols sts, decodeChannelsQT (2 * Z.of_nat m) ch encoded = Ok (cols, sts) /\ length cols = ch.
Proof.
  induction ch as [|ch IH]; intros encoded Hb Hl Hi.
  - exists [], []. cbn. auto.
  - cbn [decodeChannelsQT]. destruct encoded as [|e0 [|e1 rest]]; try (cbn [length] in Hl; lia).
    cbn [decodeChannelQT]. set (p := Z.lor (Z.shiftl e0 8) (Z.land e1 128)).
    replace ((2 * Z.of_nat m + 1) / 2) with (Z.of_nat m) by lia.
    cbn [length] in Hl. unfold zlen. replace (Z.of_nat (length rest) <? Z.of_nat m) with false by lia.
    pose proof (Hi 0%nat ltac:(lia)) as H0. rewrite Nat.mul_0_r in H0. cbn [plus nth] in H0.
    pose proof Hb as Hb'. cbn in Hb'. apply andb_true_iff in Hb' as [B0 Hb']. apply andb_true_iff in Hb' as [B1 Br].
    assert (Hp : 0 <= Z.land e1 127). { change 127 with (Z.ones 7). rewrite Z.land_ones by lia. zpow. lia. }
    unfold zfirstn, zskipn. rewrite Nat2Z.id.
    destruct (decodePairs_ok (firstn m rest) (mkState (clamp16 (if Z.testbit p 15 then p - 65536 else p)) (Z.land e1 127)))
      as (l & st' & E & L & _). { cbn [index]. lia. } { now apply bytes_ok_firstn. }
    rewrite E. cbn [rbind].
    destruct (IH (skipn m rest)) as (cols & sts & E' & L').
    { now apply bytes_ok_skipn. } { rewrite skipn_length. lia. }
    { intros c Hc. specialize (Hi (S c) ltac:(lia)).
      replace ((m + 2) * S c + 1)%nat with (S (S (m + ((m + 2) * c + 1)))) in Hi by lia. cbn [nth] in Hi.
      assert (EN : forall (l : list Z) a b, nth b (skipn a l) 0 = nth (a + b) l 0).
      { clear. intros l a; revert l; induction a; intros [|x l] b; cbn; auto. destruct b; auto. }
      rewrite EN. exact Hi. }
    rewrite E'. cbn [rbind]. eexists _, _. split; [reflexivity|]. cbn. congruence.
Qed.

Lemma decodeBlockQT_safe m ch encoded : bytes_ok encoded = true -> ((m + 2) * ch <= length encoded)%nat ->
  (forall c, (c < ch)%nat -> Z.land (nth ((m + 2) * c + 1) encoded 0) 127 <= 88) ->
  exists frames sts, decodeBlockQT (2 * Z.of_nat m) ch encoded = Ok (frames, sts) /\
    length frames = (2 * m)%nat /\ Forall (fun f => length f = ch) frames.
Proof.
  intros Hb Hl Hi. unfold decodeBlockQT. destruct (decodeChannelsQT_safe m ch encoded Hb Hl Hi) as (cols & sts & E & L).
  rewrite E. cbn [rbind]. eexists _, _. split; [reflexivity|]. split; [rewrite interleave_length; lia|].
  rewrite <- L. apply interleave_frames.
Qed.
