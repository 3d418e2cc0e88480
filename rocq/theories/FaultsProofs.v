(** Proofs about [Faults]: a call either does what it does on a perfect source, or reports an error and leaves the counted position where it was. *)
From Verif Require Import Prelude PreludeFacts FileIO Rebuffer RebufferProofs Reader ReaderSpec ReaderProofs Faults.

(** ** One read(2) *)
Lemma dread_cases d f n : let '(data, f1) := fread f n in
  (exists d', dread d f n = (data, f1, d') /\ (length d' <= length d)%nat) \/
  (exists data' d', dread d f n = (data', mkFile (fbytes f) (fpos f + zlen data'), d') /\ zlen data' < zlen data /\ data' = zfirstn (zlen data') data /\ (length d' < length d)%nat).
Proof.
  unfold dread, fread. set (data := zfirstn n (zskipn (fpos f) (fbytes f))). destruct d as [|a d]; [left; exists []; auto|].
  pose proof (zlen_nonneg data) as P. destruct (Z.ltb_spec a 0) as [La|La].
  - destruct data as [|x l] eqn:E.
    + left. exists d. cbn [length]. split; [reflexivity|lia].
    + right. exists [], d. split; [reflexivity|]. cbn [length]. split; [change (zlen (@nil Z)) with 0; rewrite zlen_cons; pose proof (zlen_nonneg l); lia|]. split; [reflexivity|lia].
  - destruct (Z.le_gt_cases (zlen data) a) as [L|L].
    + left. exists d. rewrite zfirstn_all by lia. cbn [length]. split; [reflexivity|lia].
    + right. exists (zfirstn a data), d. split; [reflexivity|]. rewrite zlen_firstn by lia. rewrite Z.min_l by lia. cbn [length]. split; [lia|]. split; [reflexivity|lia].
Qed.

(** ** The rebuffering module with a source module that sometimes delivers nothing *)
Section Reb.
Context {B : Build} {A S S' : Type} (pull : S -> Z -> res (list (option A) * S)) (pullF : S' -> Z -> res (list (option A) * S')).
Variable view : S' -> S -> Prop.
Variable Lost : S -> S' -> nat -> Prop.
Variable size : S' -> nat.
Variable N : Z.
Hypothesis HN : 0 < N.
Hypothesis Sim : forall s s1 d n l, view d s -> 0 < n -> pull s n = Ok (l, s1) ->
  (exists d1, pullF d n = Ok (l, d1) /\ view d1 s1 /\ (size d1 <= size d)%nat) \/ (exists d1, pullF d n = Ok ([], d1) /\ Lost s d1 (size d)).
Hypothesis Back : forall s s1 n l d k k', pull s n = Ok (l, s1) -> Lost s1 d k -> (k <= k')%nat -> Lost s d k'.

Lemma pullLoop_faulty : forall fuel eof buffer offset out outPos ftp s d eof' buffer' offset' out' ftp' s',
  view d s -> (0 < ftp -> offset = N) ->
  pullLoop pull N false fuel eof buffer offset out outPos ftp s = Ok (eof', buffer', offset', out', ftp', s') ->
  (exists d', pullLoop pullF N false fuel eof buffer offset out outPos ftp d = Ok (eof', buffer', offset', out', ftp', d') /\ view d' s' /\ (size d' <= size d)%nat) \/
  (exists b1 o1 f1 d', pullLoop pullF N false fuel eof buffer offset out outPos ftp d = Ok (true, b1, N, o1, f1, d') /\ 0 < f1 /\ zlen b1 = zlen buffer /\ Lost s d' (size d)).
Proof.
  induction fuel as [|fuel IH]; intros eof buffer offset out outPos ftp s d eof' buffer' offset' out' ftp' s' HV Ho; cbn [pullLoop].
  { destruct (eof || (ftp <=? 0)) eqn:Ef; [|discriminate]. intros E. left. exists d. split; [congruence|]. split; [congruence|lia]. }
  destruct (eof || (ftp <=? 0)) eqn:Ef. { intros E. left. exists d. split; [congruence|]. split; [congruence|lia]. }
  assert (Pf : 0 < ftp) by (destruct eof; cbn [orb] in Ef; [discriminate|lia]). specialize (Ho Pf). subst offset.
  unfold rassert at 1. replace (0 <? N) with true by lia. cbn [rbind]. intros E.
  apply rbind_Ok in E. destruct E as ([inb s1] & Ep & E).
  destruct (Sim s s1 d N inb HV HN Ep) as [(d1 & Ep1 & HV1 & Sz1)|(d1 & Ep1 & HL)].
  - rewrite Ep1. cbn [rbind]. unfold rassert at 1. replace (0 <? N) with true by lia. cbn [rbind].
    apply rbind_Ok in E. destruct E as (seg & Es & E). rewrite Es. cbn [rbind].
    apply rbind_Ok in E. destruct E as (out1 & Eo & E). rewrite Eo. cbn [rbind negb orb] in E |- *. unfold rassert at 1 in E. unfold rassert at 1. cbn [rbind] in E |- *.
    assert (Step : forall b1 o1 e1, (0 < ftp - zlen inb -> o1 = N) -> zlen b1 = zlen buffer ->
       pullLoop pull N false fuel e1 b1 o1 out1 (outPos + zlen inb) (ftp - zlen inb) s1 = Ok (eof', buffer', offset', out', ftp', s') ->
       (exists d', pullLoop pullF N false fuel e1 b1 o1 out1 (outPos + zlen inb) (ftp - zlen inb) d1 = Ok (eof', buffer', offset', out', ftp', d') /\ view d' s' /\ (size d' <= size d)%nat) \/
       (exists b2 o2 f1 d', pullLoop pullF N false fuel e1 b1 o1 out1 (outPos + zlen inb) (ftp - zlen inb) d1 = Ok (true, b2, N, o2, f1, d') /\ 0 < f1 /\ zlen b2 = zlen buffer /\ Lost s d' (size d))).
    { intros b1 o1 e1 Q1 Q2 E1. destruct (IH _ _ _ _ _ _ _ d1 _ _ _ _ _ _ HV1 Q1 E1) as [(d' & G1 & G2 & G3)|(b2 & o2 & f1 & d' & G1 & G2 & G3 & G4)].
      - left. exists d'. split; [exact G1|]. split; [exact G2|lia].
      - right. exists b2, o2, f1, d'. split; [exact G1|]. split; [exact G2|]. split; [lia|]. eapply Back; [exact Ep|exact G4|exact Sz1]. }
    destruct (ftp - zlen inb <? 0) eqn:Eneg.
    + apply rbind_Ok in E. destruct E as (u1 & Eu1 & E). rewrite Eu1. cbn [rbind].
      apply rbind_Ok in E. destruct E as (u2 & Eu2 & E). rewrite Eu2. cbn [rbind].
      apply rbind_Ok in E. destruct E as (seg2 & Eg2 & E). rewrite Eg2. cbn [rbind].
      apply rbind_Ok in E. destruct E as (b2 & Eb2 & E). rewrite Eb2. cbn [rbind].
      apply Step; [lia| |exact E].
      clear -Eb2. unfold blit in Eb2. destruct (zlen seg2 =? 0); [congruence|]. destruct ((0 <=? _) && _) eqn:Q; [|discriminate].
      assert (b2 = zfirstn (N + (ftp - zlen inb)) buffer ++ seg2 ++ zskipn (N + (ftp - zlen inb) + zlen seg2) buffer) as -> by congruence. apply blit_len; lia.
    + apply rbind_Ok in E. destruct E as (u1 & Eu1 & E). rewrite Eu1. cbn [rbind]. apply Step; auto.
  - (* nothing delivered *)
    right. rewrite Ep1. cbn [rbind]. change (zlen (@nil (option A))) with 0. replace (Z.min ftp 0) with 0 by lia. unfold rassert at 1. replace (0 <? N) with true by lia.
    change (slice (@nil (option A)) 0 0) with (@Ok (list (option A)) []). cbn [rbind]. change (blit out outPos (@nil (option A))) with (@Ok (list (option A)) out). cbn [rbind].
    replace (0 =? N) with false by lia. cbn [negb orb]. unfold rassert. cbn [rbind].
    replace (ftp - 0 <? 0) with false by lia. rewrite Z.eqb_refl. cbn [rbind].
    exists buffer, out, (ftp - 0), d1. split; [destruct fuel; reflexivity|]. split; [lia|]. split; [reflexivity|exact HL].
Qed.

Lemma rebPull_faulty fuel r s d n l r' s' : view d s -> 0 < r_offset r <= N -> zlen (r_buffer r) = N ->
  rebPull pull N false fuel r s n = Ok (l, r', s') ->
  (exists d', rebPull pullF N false fuel r d n = Ok (l, r', d') /\ view d' s' /\ (size d' <= size d)%nat) \/
  (exists l1 r1 d', rebPull pullF N false fuel r d n = Ok (l1, r1, d') /\ zlen (r_buffer r1) = zlen (r_buffer r) /\ Lost s d' (size d)).
Proof.
  intros HV Ho Hb. unfold rebPull. intros E.
  apply rbind_Ok in E. destruct E as (u1 & Eu1 & E). rewrite Eu1. cbn [rbind].
  apply rbind_Ok in E. destruct E as (u2 & Eu2 & E). rewrite Eu2. cbn [rbind].
  apply rbind_Ok in E. destruct E as ([[[out outPos] ftp] offset] & Eo & E). rewrite Eo. cbn [rbind].
  apply rbind_Ok in E. destruct E as ([[[[[eof buffer] offset1] out1] ftp1] s1] & El & E).
  assert (Off : 0 < ftp -> offset = N).
  { intros Pf. destruct (r_offset r <? N) eqn:Lo.
    - apply rbind_Ok in Eo. destruct Eo as (seg & _ & Eo). apply rbind_Ok in Eo. destruct Eo as (o1 & _ & Eo).
      assert (ftp = n - (N - r_offset r)) by congruence. assert (offset = r_offset r + Z.min n (N - r_offset r)) by congruence. lia.
    - assert (offset = r_offset r) by congruence. lia. }
  destruct (pullLoop_faulty _ _ _ _ _ _ _ _ d _ _ _ _ _ _ HV Off El) as [(d' & G1 & G2 & G3)|(b1 & o1 & f1 & d' & G1 & G2 & G3 & G4)]; rewrite G1; cbn [rbind].
  - left. destruct (eof && (0 <? ftp1)).
    + apply rbind_Ok in E. destruct E as (u3 & Eu3 & E). rewrite Eu3. cbn [rbind]. apply rbind_Ok in E. destruct E as (u4 & Eu4 & E). rewrite Eu4. cbn [rbind].
      exists d'. split; [congruence|]. split; [congruence|exact G3].
    + apply rbind_Ok in E. destruct E as (u3 & Eu3 & E). rewrite Eu3. cbn [rbind]. apply rbind_Ok in E. destruct E as (u4 & Eu4 & E). rewrite Eu4. cbn [rbind].
      apply rbind_Ok in E. destruct E as (u5 & Eu5 & E). rewrite Eu5. cbn [rbind]. exists d'. split; [congruence|]. split; [congruence|exact G3].
  - right. replace (true && (0 <? f1)) with true by lia. unfold offsetOkPull, rassert. rewrite Z.eqb_refl. cbn [rbind]. replace ((0 <? N) && (N <=? N)) with true by lia. cbn [rbind].
    eexists _, _, d'. split; [reflexivity|]. cbn [r_buffer]. auto.
Qed.
End Reb.

(** ** The file modules and the chain *)
Section Proofs.
Context {B : Build}.
Context {F V : Type} (c : codec F) (conv : F -> V) (hasConv : bool) (bytes : list Z) (first total : Z).
Variable stream : list F.
Hypothesis HS : streamOf c bytes first total stream.

(** What a call that reported an error leaves: the counted position and what a seek needs. *)
Definition lost (st st' : rstate F) : Prop :=
  fbytes (rs_file st') = fbytes (rs_file st) /\ t_happy (rs_track st') = false /\ match c with Blocks fpp _ _ => zlen (r_buffer (rs_reb st')) = fpp | _ => True end /\
  t_first (rs_track st') = t_first (rs_track st) /\ t_totalf (rs_track st') = t_totalf (rs_track st) /\ t_ignore (rs_track st') = t_ignore (rs_track st) /\
  t_nextv (rs_track st') = t_nextv (rs_track st) /\ t_totalv (rs_track st') = t_totalv (rs_track st).

(** The same for the file module's state. *)
Definition keeps (s s' : file * rtrack) : Prop :=
  let '(f, t) := s in let '(f', t') := s' in fbytes f' = fbytes f /\ t_first t' = t_first t /\ t_totalf t' = t_totalf t /\ t_ignore t' = t_ignore t /\
    t_nextv t' = t_nextv t /\ t_totalv t' = t_totalv t.

Lemma blockPull_keeps fpp bpp (decB : list Z -> res (list F)) s n l s1 : blockPull fpp bpp decB s n = Ok (l, s1) -> keeps s s1.
Proof.
  destruct s as [f t], s1 as [f1 t1]. unfold blockPull. destruct ((fpp <=? 0) || (bpp <=? 0)); [discriminate|]. intros E.
  apply rbind_Ok in E. destruct E as (u & _ & E). unfold fread in E. apply rbind_Ok in E. destruct E as (bs & _ & E). apply rbind_Ok in E. destruct E as (u2 & _ & E).
  inversion E. subst. unfold keeps. cbn. auto 10.
Qed.

Lemma blockPull_chunk fpp bpp (decB : list Z -> res (list F)) s l s1 f t : blockPull fpp bpp decB s fpp = Ok (l, s1) -> s = (f, t) -> ftell f = t_nextpos t -> 0 <= fpos f ->
  forall d, (exists d1, blockPullF fpp bpp decB (f, t, d) fpp = Ok (l, (s1, d1)) /\ (length d1 <= length d)%nat) \/
            (exists f1 t1 d1, blockPullF fpp bpp decB (f, t, d) fpp = Ok ([], (f1, t1, d1)) /\ keeps s (f1, t1) /\ t_happy t1 = false /\ (length d1 < length d)%nat).
Proof.
  intros E -> Ht Hp d. unfold blockPull in E. unfold blockPullF. destruct ((fpp <=? 0) || (bpp <=? 0)) eqn:Pos; [discriminate|].
  assert (F0 : 0 < fpp /\ 0 < bpp) by lia. clear Pos. destruct F0 as [F0 B0]. rewrite Z.rem_same in * by lia. unfold rassert at 1 in E. unfold rassert at 1. cbn [Z.eqb rbind] in *.
  rewrite Z.quot_same in * by lia. rewrite Z.mul_1_r in *.
  pose proof (dread_cases d f bpp) as C. destruct (fread f bpp) as [data f1] eqn:Ef.
  destruct C as [(d1 & -> & L)|(data' & d1 & -> & L & _ & L2)].
  - left. exists d1. split; [|exact L]. apply rbind_Ok in E. destruct E as (bs & Eb & E). rewrite Eb. cbn [rbind]. apply rbind_Ok in E. destruct E as (u2 & Eu & E). rewrite Eu. cbn [rbind].
    congruence.
  - right. assert (Ld : zlen data <= bpp) by (unfold fread in Ef; assert (data = zfirstn bpp (zskipn (fpos f) (fbytes f))) as -> by congruence; rewrite zlen_firstn by lia; lia).
    pose proof (zlen_nonneg data'). rewrite Z.quot_small by lia. cbn [Z.to_nat chunksOf rmapM rbind map concat]. unfold ftell, rassert in *. cbn [fpos].
    replace (fpos f + zlen data' =? t_nextpos t + zlen data') with true by lia. cbn [rbind]. replace (0 * fpp <? fpp) with true by lia. cbn [negb].
    rewrite andb_false_r. eexists _, _, d1. split; [reflexivity|]. unfold keeps. cbn. auto 10.
Qed.

(** One pull. *)
Lemma userPullF_ok st p n d : at_ c bytes first total stream st p -> 0 <= n -> p + n <= total -> t_happy (rs_track st) = true ->
  (exists st' d', userPullF c conv hasConv true st d n = Ok (map Some (map conv (zfirstn n (zskipn p stream))), st', d') /\
    at_ c bytes first total stream st' (p + n) /\ frozen (rs_track st) (rs_track st') /\ (length d' <= length d)%nat) \/
  (exists l st' d', userPullF c conv hasConv true st d n = Ok (l, st', d') /\ lost st st' /\ (length d' < length d)%nat).
Proof.
  intros Hat Hn Hl Hh. destruct (userPull_ok c conv hasConv true bytes first total stream HS st p n Hat Hn Hl) as (st' & E & At & Fr).
  unfold userPull in E. unfold userPullF. pose proof HS as (F1 & F2 & F3). pose proof Hat as Hat0. unfold at_ in Hat. destruct c as [isPCM bpf dec|fpp bpp decB] eqn:Ec.
  - destruct F3 as (Bp & L & Ls & Es). destruct Hat as (Hb & Hp & Hnf & Htf & Hnp & Hfp).
    apply rbind_Ok in E. destruct E as ([chunk st1] & E1 & E). apply rbind_Ok in E1. destruct E1 as ([chunk1 [f1 t1]] & E0 & E1).
    unfold perFramePull in E0. unfold perFramePullF.
    replace (t_totalf (rs_track st) <? t_nextf (rs_track st) + n) with false in * by lia. rewrite andb_false_r in *.
    replace ((n <? 0) || (bpf <=? 0)) with false in * by lia.
    pose proof (dread_cases d (rs_file st) (bpf * n)) as C. destruct (fread (rs_file st) (bpf * n)) as [data f2] eqn:Ef.
    destruct C as [(d1 & -> & Ld)|(data' & d1 & -> & Ld & _ & L2)].
    + left. apply rbind_Ok in E0. destruct E0 as (u & Eu & E0). rewrite Eu. cbn [rbind].
      exists st', d1. split; [|auto]. assert (t1 = mkRT (t_first (rs_track st)) (t_nextf (rs_track st) + zlen data ÷ bpf) (t_totalf (rs_track st)) (t_nextpos (rs_track st) + zlen data)
        (t_ignore (rs_track st)) (t_nextv (rs_track st)) (t_totalv (rs_track st)) (t_happy (rs_track st) && ((zlen data ÷ bpf =? n) || (t_totalf (rs_track st) =? -1)))) as <- by congruence.
      assert (f2 = f1) as -> by congruence. assert (map (fun b => Some (dec b)) (chunksOf (Z.to_nat (zlen data ÷ bpf)) bpf data) = chunk) as -> by congruence.
      assert (mkRS f1 t1 (rs_reb st) = st1) as -> by congruence. cbv zeta in *. congruence.
    + right. assert (Ldd : zlen data <= bpf * n) by (unfold fread in Ef; assert (data = zfirstn (bpf * n) (zskipn (fpos (rs_file st)) (fbytes (rs_file st)))) as -> by congruence; rewrite zlen_firstn by nia; nia).
      pose proof (zlen_nonneg data') as P. unfold ftell, rassert. cbn [fpos]. rewrite Hfp, Z.eqb_refl, orb_true_r. cbn [rbind].
      assert (Q : zlen data' ÷ bpf =? n = false). { rewrite Z.quot_div_nonneg by lia. apply Z.eqb_neq. intros Q. pose proof (Z.mul_div_le (zlen data') bpf ltac:(lia)). nia. }
      rewrite Q, Htf. replace (total =? -1) with false by lia. cbn [orb]. rewrite andb_false_r.
      eexists _, _, d1. split; [reflexivity|]. split; [|exact L2]. unfold lost. rewrite Ec. cbn. repeat split; auto.
  - destruct F3 as (B1 & B2 & nb & blocks & L & Eb & A & Es). destruct Hat as (Hp & Hr). pose proof Hr as (srem & (Hby & k & G1 & G2 & G3 & G4 & G5 & G6) & R1 & R2 & R3 & R4 & R5).
    apply rbind_Ok in E. destruct E as ([chunk st1] & E1 & E). apply rbind_Ok in E1. destruct E1 as ([[chunk1 r1] [f1 t1]] & E0 & E1).
    set (view := fun (s' : file * rtrack * source) (s : file * rtrack) => s = fst s' /\ ftell (fst s) = t_nextpos (snd s) /\ 0 <= fpos (fst s)).
    set (Lost := fun (s : file * rtrack) (s' : file * rtrack * source) (k : nat) => keeps s (fst s') /\ t_happy (snd (fst s')) = false /\ (length (snd s') < k)%nat).
    assert (PV : forall s n l s1, blockPull fpp bpp decB s n = Ok (l, s1) -> ftell (fst s) = t_nextpos (snd s) -> 0 <= fpos (fst s) -> ftell (fst s1) = t_nextpos (snd s1) /\ 0 <= fpos (fst s1)).
    { clear. intros [f t] n l [f1 t1]. unfold blockPull. destruct ((fpp <=? 0) || (bpp <=? 0)); [discriminate|]. intros E.
      apply rbind_Ok in E. destruct E as (u & _ & E). unfold fread in E. apply rbind_Ok in E. destruct E as (bs & _ & E). apply rbind_Ok in E. destruct E as (u2 & _ & E).
      inversion E. subst. unfold ftell. cbn. intros H1 H2. pose proof (zlen_nonneg (zfirstn (bpp * (n ÷ fpp)) (zskipn (fpos f) (fbytes f)))). lia. }
    assert (Only : forall s n l s1 d, view d s -> blockPull fpp bpp decB s n = Ok (l, s1) -> n = fpp ->
      (exists d1, blockPullF fpp bpp decB d n = Ok (l, d1) /\ view d1 s1 /\ (length (snd d1) <= length (snd d))%nat) \/ (exists d1, blockPullF fpp bpp decB d n = Ok ([], d1) /\ Lost s d1 (length (snd d)))).
    { intros s m l s1 [[f t] dd] (V1 & V2 & V3) Ep ->. cbn [fst snd] in *. subst s. cbn [fst snd] in *.
      destruct (blockPull_chunk fpp bpp decB (f, t) l s1 f t Ep eq_refl V2 V3 dd) as [(d1 & Q1 & Q2)|(f2 & t2 & d1 & Q1 & Q2 & Q3 & Q4)].
      - left. exists (s1, d1). split; [exact Q1|]. split; [|exact Q2]. split; [reflexivity|]. eapply PV; eauto.
      - right. exists (f2, t2, d1). split; [exact Q1|]. unfold Lost. cbn [fst snd]. auto. }
    assert (Back : forall s s1 n l d k k', blockPull fpp bpp decB s n = Ok (l, s1) -> Lost s1 d k -> (k <= k')%nat -> Lost s d k').
    { clear. intros s s1 n l d k k' Ep (H1 & H2 & H3) Hk. apply blockPull_keeps in Ep. unfold Lost. split; [|split; [exact H2|lia]].
      destruct s as [f t], s1 as [f1 t1], (fst d) as [f2 t2]. unfold keeps in *. intuition congruence. }
    (* the rebuffering module only asks for whole blocks *)
    assert (Sim : forall s s1 d n l, view d s -> 0 < n -> (fun s n => if n =? fpp then blockPull fpp bpp decB s n else UB) s n = Ok (l, s1) ->
      (exists d1, blockPullF fpp bpp decB d n = Ok (l, d1) /\ view d1 s1 /\ (length (snd d1) <= length (snd d))%nat) \/ (exists d1, blockPullF fpp bpp decB d n = Ok ([], d1) /\ Lost s d1 (length (snd d)))).
    { intros s s1 dd m l HV Hm Ep. destruct (Z.eqb_spec m fpp); [|discriminate]. eapply Only; eauto. }
    assert (Back' : forall s s1 n l d k k', (fun s n => if n =? fpp then blockPull fpp bpp decB s n else UB) s n = Ok (l, s1) -> Lost s1 d k -> (k <= k')%nat -> Lost s d k').
    { intros s s1 m l dd k0 k1 Ep. destruct (Z.eqb_spec m fpp); [|discriminate]. eapply Back; eauto. }
    assert (Same : forall fuel eof buffer offset out outPos ftp s x, pullLoop (blockPull fpp bpp decB) fpp false fuel eof buffer offset out outPos ftp s = Ok x ->
       pullLoop (fun s n => if n =? fpp then blockPull fpp bpp decB s n else UB) fpp false fuel eof buffer offset out outPos ftp s = Ok x).
    { clear. induction fuel as [|fuel IH]; intros eof buffer offset out outPos ftp s x; cbn [pullLoop]; destruct (eof || (ftp <=? 0)); try (intros; assumption).
      rewrite Z.eqb_refl. intros E. apply rbind_Ok in E. destruct E as (u1 & E1 & E). rewrite E1. cbn [rbind]. apply rbind_Ok in E. destruct E as ([inb s1] & E2 & E). rewrite E2. cbn [rbind].
      apply rbind_Ok in E. destruct E as (seg & E3 & E). rewrite E3. cbn [rbind]. apply rbind_Ok in E. destruct E as (o1 & E4 & E). rewrite E4. cbn [rbind].
      apply rbind_Ok in E. destruct E as (u2 & E5 & E). rewrite E5. cbn [rbind]. destruct (ftp - zlen inb <? 0).
      - apply rbind_Ok in E. destruct E as (u3 & E6 & E). rewrite E6. cbn [rbind]. apply rbind_Ok in E. destruct E as (u4 & E7 & E). rewrite E7. cbn [rbind].
        apply rbind_Ok in E. destruct E as (u5 & E8 & E). rewrite E8. cbn [rbind]. apply rbind_Ok in E. destruct E as (u6 & E9 & E). rewrite E9. cbn [rbind]. now apply IH.
      - apply rbind_Ok in E. destruct E as (u3 & E6 & E). rewrite E6. cbn [rbind]. now apply IH. }
    assert (Same2 : rebPull (fun s n => if n =? fpp then blockPull fpp bpp decB s n else UB) fpp false (Z.to_nat n) (rs_reb st) (rs_file st, rs_track st) n = Ok (chunk1, r1, (f1, t1))).
    { clear -E0 Same. unfold rebPull in *. apply rbind_Ok in E0. destruct E0 as (u1 & E1 & E). rewrite E1. cbn [rbind]. apply rbind_Ok in E. destruct E as (u2 & E2 & E). rewrite E2. cbn [rbind].
      apply rbind_Ok in E. destruct E as ([[[out outPos] ftp] offset] & E3 & E). rewrite E3. cbn [rbind]. apply rbind_Ok in E. destruct E as (x & E4 & E). rewrite (Same _ _ _ _ _ _ _ _ _ E4). cbn [rbind]. exact E. }
    assert (HV0 : view (rs_file st, rs_track st, d) (rs_file st, rs_track st)).
    { split; [reflexivity|]. cbn [fst snd]. unfold ftell. split; [congruence|]. rewrite G1. nia. }
    destruct (rebPull_faulty _ (blockPullF fpp bpp decB) view Lost (fun d => length (snd d)) fpp B1 Sim Back' _ _ _ _ _ _ _ _ HV0 R2 R1 Same2)
      as [([[f2 t2] d'] & Q1 & Q2 & Q3)|(l1 & r2 & [[f2 t2] d'] & Q1 & Q2 & Q3)]; rewrite Q1; cbn [rbind].
    + left. destruct Q2 as (Q2 & _). cbn [fst] in Q2. assert (f2 = f1) as -> by congruence. assert (t2 = t1) as -> by congruence.
      exists st', d'. assert (mkRS f1 t1 r1 = st1) as -> by congruence. assert (chunk1 = chunk) as -> by congruence. split; [cbv zeta in *; congruence|auto].
    + right. eexists _, _, d'. split; [reflexivity|]. destruct Q3 as (K1 & K2 & K3). cbn [fst snd] in *. split; [|exact K3]. unfold lost, keeps in *. rewrite Ec. cbn [rs_file rs_track rs_reb]. rewrite Q2, R1. tauto.
Qed.

(** The loop: it either reads everything, or stops at an error with a prefix of it. *)
Lemma readLoopF_ok : forall fuel st d acc p n, at_ c bytes first total stream st p -> t_happy (rs_track st) = true -> zlen acc <= n -> p + (n - zlen acc) <= total ->
  n - zlen acc < Z.of_nat fuel ->
  (exists st' d', readLoopF c conv hasConv true fuel st d false acc n = Ok (acc ++ map Some (map conv (zfirstn (n - zlen acc) (zskipn p stream))), st', d') /\
    at_ c bytes first total stream st' (p + (n - zlen acc)) /\ frozen (rs_track st) (rs_track st') /\ (length d' <= length d)%nat) \/
  (exists k st' d', readLoopF c conv hasConv true fuel st d false acc n = Ok (acc ++ map Some (map conv (zfirstn k (zskipn p stream))), st', d') /\
    0 <= k < n - zlen acc /\ lost st st' /\ (length d' < length d)%nat).
Proof.
  induction fuel as [|fuel IH]; intros st d acc p n Hat Hh Ha Hl Hf; [lia|].
  cbn [readLoopF]. rewrite Hh. cbn [negb andb].
  destruct (Z.ltb_spec (zlen acc) n) as [Hlt|Hge].
  - cbn [negb].
    set (q := if zlen acc <=? n - ATOMIC then ATOMIC else n - zlen acc).
    assert (Hq : 0 < q <= n - zlen acc) by (unfold q, ATOMIC; destruct (Z.leb_spec (zlen acc) (n - 1024)); lia).
    clearbody q.
    assert (Hp : 0 <= p) by (eapply (at_pos c conv); eauto).
    assert (HT : total <= zlen stream) by (destruct HS as (_ & HT & _); lia).
    assert (Lch : zlen (map (@Some V) (map conv (zfirstn q (zskipn p stream)))) = q) by (rewrite !zlen_map, zlen_firstn, zlen_skipn by lia; lia).
    destruct (userPullF_ok st p q d Hat ltac:(lia) ltac:(lia) Hh) as [(st1 & d1 & -> & At1 & Fr1 & L1)|(l & st1 & d1 & -> & L1 & L2)]; cbn [rbind].
    + assert (Hh1 : t_happy (rs_track st1) = true) by (destruct Fr1 as (_ & _ & _ & _ & _ & ->); exact Hh).
      rewrite Hh1. rewrite Lch, Z.ltb_irrefl.
      assert (Split : forall k, 0 <= k -> map (@Some V) (map conv (zfirstn (q + k) (zskipn p stream))) = map Some (map conv (zfirstn q (zskipn p stream))) ++ map Some (map conv (zfirstn k (zskipn (p + q) stream)))).
      { intros k Hk. rewrite <- map_app, <- map_app. do 2 f_equal. rewrite (zfirstn_split q k) by lia. rewrite zskipn_zskipn by lia. reflexivity. }
      destruct (IH st1 d1 (acc ++ map Some (map conv (zfirstn q (zskipn p stream)))) (p + q) n) as [(st' & d' & E & At & Fr & L)|(k & st' & d' & E & K & LL & L)]; auto;
        try (rewrite zlen_app, Lch; lia).
      * left. exists st', d'. rewrite E. split; [|split; [|split]].
        -- f_equal. f_equal. f_equal. rewrite zlen_app, Lch. rewrite <- app_assoc. f_equal. replace (n - zlen acc) with (q + (n - (zlen acc + q))) by lia. rewrite Split by lia. reflexivity.
        -- rewrite zlen_app, Lch in At. replace (p + (n - zlen acc)) with (p + q + (n - (zlen acc + q))) by lia. exact At.
        -- eapply frozen_trans; eauto.
        -- lia.
      * right. rewrite zlen_app, Lch in K. exists (q + k), st', d'. rewrite E. split; [rewrite <- app_assoc; do 4 f_equal; rewrite Split by lia; reflexivity|]. split; [lia|]. split; [|lia].
        destruct Fr1 as (a1 & a2 & a3 & a4 & a5 & a6). pose proof (at_fpos c conv bytes first total stream _ _ At1) as [_ b1]. pose proof (at_fpos c conv bytes first total stream _ _ Hat) as [_ b2].
        unfold lost in *. intuition congruence.
    + assert (Hu : t_happy (rs_track st1) = false) by apply L1. rewrite Hu. right. exists 0, st1, d1.
      assert (EL : readLoopF c conv hasConv true fuel st1 d1 false acc n = Ok (acc, st1, d1)) by (destruct fuel; cbn [readLoopF]; rewrite Hu; reflexivity).
      rewrite EL. rewrite zfirstn_0 by lia. cbn [map]. rewrite app_nil_r. split; [reflexivity|]. split; [lia|]. auto.
  - cbn [negb]. left. exists st, d. split; [|split; [|split; [apply frozen_refl|lia]]].
    + rewrite (zfirstn_0 (n - zlen acc)) by lia. cbn. now rewrite app_nil_r.
    + replace (p + (n - zlen acc)) with p by lia. exact Hat.
Qed.

(** ** Whole calls *)

(** After an error only this is known: the next read is not promised anything, a seek that moves puts everything right. *)
Definition drift (st : rstate F) (pos : Z) : Prop :=
  let t := rs_track st in
  t_first t = first /\ t_totalf t = total /\ t_totalv t = total /\ t_nextv t = pos /\ 0 <= pos <= total /\ fbytes (rs_file st) = bytes /\
  match c with Blocks fpp _ _ => zlen (r_buffer (rs_reb st)) = fpp | _ => True end.

Lemma inv_drift st pos : inv c true bytes first total stream st pos -> drift st pos.
Proof. intros (I1 & I2 & I3 & I4 & I5 & I6 & I7 & I8 & I9). unfold drift. auto 10. Qed.

Lemma afReadFramesF_ok st d pos wanted : inv c true bytes first total stream st pos ->
  let k := Z.max 0 (Z.min wanted (total - pos)) in
  exists r e st' d', afReadFramesF c conv hasConv true st d wanted = Ok (map Some (map conv (zfirstn r (zskipn pos stream))), e, st', d') /\
    0 <= r <= k /\ (length d' <= length d)%nat /\
    if e : bool then (r < k \/ k = 0) /\ drift st' (pos + r) /\ (length d' < length d)%nat else r = k /\ inv c true bytes first total stream st' (pos + r).
Proof.
  intros (I1 & I2 & I3 & I4 & I5 & I6 & I7 & I8 & I9). cbv zeta. unfold afReadFramesF. rewrite I3, I4. replace (total =? -1) with false by lia.
  set (n := if total - pos <? wanted then total - pos else wanted).
  assert (En : n = Z.min wanted (total - pos)) by (unfold n; destruct (Z.ltb_spec (total - pos) wanted); lia).
  clearbody n. rewrite <- En.
  set (st0 := mkRS (fseek (rs_file st) (t_nextpos (rs_track st))) (setHappy (rs_track st) true) (rs_reb st)).
  assert (A0 : at_ c bytes first total stream st0 (pos - t_ignore (rs_track st))) by (eapply at_track; [exact I7|..]; reflexivity).
  assert (HT : 0 <= total <= zlen stream) by (destruct HS as (_ & HT & _); lia).
  (* skip the frames to ignore *)
  assert (Skip :
    (exists st1 d1, (if negb (t_ignore (rs_track st) =? 0) then
       if t_ignore (rs_track st) <? 0 then UB else
       do (chunk, st', d') <- userPullF c conv hasConv true st0 d (t_ignore (rs_track st));
       Ok (setTrack st' (setIgnore (rs_track st') 0), d', zlen chunk <? t_ignore (rs_track st))
     else Ok (st0, d, false)) = Ok (st1, d1, false) /\ at_ c bytes first total stream st1 pos /\ t_happy (rs_track st1) = true /\ t_ignore (rs_track st1) = 0 /\
     t_first (rs_track st1) = first /\ t_totalf (rs_track st1) = total /\ t_totalv (rs_track st1) = total /\ t_nextv (rs_track st1) = pos /\ (length d1 <= length d)%nat) \/
    (exists st1 d1 eof, (if negb (t_ignore (rs_track st) =? 0) then
       if t_ignore (rs_track st) <? 0 then UB else
       do (chunk, st', d') <- userPullF c conv hasConv true st0 d (t_ignore (rs_track st));
       Ok (setTrack st' (setIgnore (rs_track st') 0), d', zlen chunk <? t_ignore (rs_track st))
     else Ok (st0, d, false)) = Ok (st1, d1, eof) /\ drift st1 pos /\ t_happy (rs_track st1) = false /\ (length d1 < length d)%nat)).
  { destruct (Z.eqb_spec (t_ignore (rs_track st)) 0) as [Ez|Enz]; cbn [negb].
    - left. exists st0, d. split; [reflexivity|]. split; [rewrite Ez, Z.sub_0_r in A0; exact A0|].
      unfold st0. cbn [rs_track setHappy t_happy t_ignore t_first t_totalf t_totalv t_nextv]. auto 12.
    - replace (t_ignore (rs_track st) <? 0) with false by lia.
      destruct (userPullF_ok st0 (pos - t_ignore (rs_track st)) (t_ignore (rs_track st)) d A0) as [(st1 & d1 & E & At1 & Fr & Ld)|(l & st1 & d1 & E & Lo & Ld)]; [lia|lia|reflexivity| |].
      + left. rewrite E. cbn [rbind].
        assert (Ge : 0 <= pos - t_ignore (rs_track st)) by (eapply (at_pos c conv); eauto).
        rewrite !zlen_map, zlen_firstn, zlen_skipn by lia.
        exists (setTrack st1 (setIgnore (rs_track st1) 0)), d1. split; [do 2 f_equal; lia|].
        destruct Fr as (r1 & r2 & r3 & r4 & r5 & r6). cbn [setTrack setIgnore rs_track t_happy t_ignore t_first t_totalf t_totalv t_nextv] in *.
        split.
        { replace pos with (pos - t_ignore (rs_track st) + t_ignore (rs_track st)) at 1 by lia.
          eapply at_track; [exact At1|..]; reflexivity. }
        rewrite r6, r1, r2, r5, r4. unfold st0. cbn [rs_track setHappy t_happy t_first t_totalf t_totalv t_nextv]. auto 12.
      + right. rewrite E. cbn [rbind]. eexists _, d1, _. split; [reflexivity|].
        destruct Lo as (L1 & L2 & L3 & L4 & L5 & L6 & L7 & L8). unfold drift, st0 in *.
        cbn [setTrack setIgnore setHappy fseek fbytes rs_track rs_file rs_reb t_happy t_ignore t_first t_totalf t_totalv t_nextv] in *.
        split; [|auto]. rewrite L1, L4, L5, L7, L8. auto 10. }
  destruct Skip as [(st1 & d1 & -> & A1 & H1 & G1 & G2 & G3 & G4 & G5 & Ld)|(st1 & d1 & eof & -> & D1 & H1 & Ld)]; cbn [rbind].
  - destruct (Z.le_gt_cases n 0) as [Hneg|Hpos].
    + assert (EL : readLoopF c conv hasConv true (Z.to_nat n + 1) st1 d1 false [] n = Ok ([], st1, d1)).
      { replace (Z.to_nat n + 1)%nat with 1%nat by lia. cbn [readLoopF]. rewrite zlen_nil.
        replace (0 <? n) with false by lia. rewrite andb_false_r. reflexivity. }
      rewrite EL. cbn [rbind]. rewrite Z.max_l by lia. rewrite zlen_nil, H1. exists 0, false. eexists _, d1. split.
      { rewrite zfirstn_0 by lia. reflexivity. }
      split; [lia|]. split; [exact Ld|]. split; [reflexivity|].
      assert (As : at_ c bytes first total stream (setTrack st1 (setNextv (rs_track st1) (t_nextv (rs_track st1) + 0))) pos) by (eapply at_track; [exact A1|..]; reflexivity).
      rewrite (Z.add_0_r pos). unfold inv. cbn [setTrack setNextv rs_track t_happy t_ignore t_first t_totalf t_totalv t_nextv rs_file rs_reb].
      rewrite G1, Z.sub_0_r. rewrite (Z.add_0_r (t_nextv _)) in *. rewrite (seeked_at c conv true bytes first total stream _ pos) by exact As.
      split; [assumption|]. split; [assumption|]. split; [assumption|]. split; [lia|]. split; [lia|]. split; [lia|].
      split; [exact As|]. split; [apply (at_fpos c conv bytes first total stream _ _ A1)|apply (at_buffer _ _ _ _ _ _ _ A1)].
    + rewrite Z.max_r by lia.
      destruct (readLoopF_ok (Z.to_nat n + 1) st1 d1 [] pos n A1 H1) as [(st2 & d2 & E & A2 & Fr & L2)|(k & st2 & d2 & E & K & Lo & L2)]; try (rewrite zlen_nil; lia);
        [rewrite zlen_nil, Z.sub_0_r in E, A2|change (zlen (@nil (option V))) with 0 in K]; rewrite E; cbn [rbind app].
      * assert (Lch : zlen (map (@Some V) (map conv (zfirstn n (zskipn pos stream)))) = n).
        { rewrite !zlen_map, zlen_firstn, zlen_skipn by lia. lia. }
        rewrite Lch. destruct Fr as (r1 & r2 & r3 & r4 & r5 & r6). rewrite r6, H1. exists n, false. eexists _, d2. split; [reflexivity|].
        split; [lia|]. split; [lia|]. split; [reflexivity|].
        assert (As : at_ c bytes first total stream (setTrack st2 (setNextv (rs_track st2) (t_nextv (rs_track st2) + n))) (pos + n)) by (eapply at_track; [exact A2|..]; reflexivity).
        unfold inv. cbn [setTrack setNextv rs_track t_happy t_ignore t_first t_totalf t_totalv t_nextv rs_file rs_reb].
        rewrite r3, G1, Z.sub_0_r. rewrite (seeked_at c conv true bytes first total stream _ (pos + n)) by exact As.
        split; [congruence|]. split; [congruence|]. split; [congruence|]. split; [congruence || lia|]. split; [lia|]. split; [lia|].
        split; [exact As|]. split; [apply (at_fpos c conv bytes first total stream _ _ A2)|apply (at_buffer _ _ _ _ _ _ _ A2)].
      * assert (Lch : zlen (map (@Some V) (map conv (zfirstn k (zskipn pos stream)))) = k).
        { rewrite !zlen_map, zlen_firstn, zlen_skipn by lia. lia. }
        rewrite Lch. destruct Lo as (B1 & B2 & B3 & B4 & B5 & B6 & B7 & B8). rewrite B2. exists k, true. eexists _, d2. split; [reflexivity|].
        split; [lia|]. split; [lia|]. split; [left; lia|]. split; [|lia]. unfold drift.
        cbn [setTrack setNextv rs_track t_happy t_ignore t_first t_totalf t_totalv t_nextv rs_file rs_reb].
        pose proof (at_fpos c conv bytes first total stream _ _ A1) as [_ B9].
        split; [congruence|]. split; [congruence|]. split; [congruence|]. split; [lia|]. split; [lia|]. split; [congruence|]. exact B3.
  - assert (EL : readLoopF c conv hasConv true (Z.to_nat n + 1) st1 d1 eof [] n = Ok ([], st1, d1)).
    { replace (Z.to_nat n + 1)%nat with (S (Z.to_nat n)) by lia. cbn [readLoopF]. rewrite H1. reflexivity. }
    rewrite EL. cbn [rbind]. rewrite zlen_nil, H1. exists 0, true. eexists _, d1. split.
    { rewrite zfirstn_0 by lia. reflexivity. }
    split; [lia|]. split; [lia|]. split; [lia|]. split; [|exact Ld].
    destruct D1 as (C1 & C2 & C3 & C4 & C5 & C6 & C7). unfold drift.
    cbn [setTrack setNextv rs_track t_happy t_ignore t_first t_totalf t_totalv t_nextv rs_file rs_reb]. rewrite C4, Z.add_0_r. auto 10.
Qed.

(** A seek that moves puts everything right. *)
Lemma afSeekFrameF_ok st pos k : drift st pos -> (0 < total \/ k <= 0) ->
  let p := if k <? 0 then pos else if total <? k then total - 1 else k in
  fst (afSeekFrame c st k) = p /\ (if (k <? 0) || (k =? pos) then snd (afSeekFrame c st k) = st /\ p = pos else inv c true bytes first total stream (snd (afSeekFrame c st k)) p).
Proof.
  intros (D1 & D2 & D3 & D4 & D5 & D6 & D7) Ht. cbv zeta. unfold afSeekFrame.
  destruct (Z.ltb_spec k 0) as [Hneg|Hk]; cbn [orb].
  - cbn [fst snd]. auto.
  - rewrite D4. destruct (Z.eqb_spec k pos) as [->|Hne].
    + cbn [fst snd]. destruct (Z.ltb_spec total pos); [lia|]. auto.
    + rewrite D3. replace (total =? -1) with false by lia. cbn [negb andb fst snd].
      set (q := if total <? k then total - 1 else k).
      assert (Hq : 0 <= q <= total) by (unfold q; destruct (Z.ltb_spec total k); lia). clearbody q.
      destruct (setup_inv c true bytes first total stream HS (setTrack st (setNextv (rs_track st) q)) q) as [J1 J2]; auto.
Qed.
End Proofs.
