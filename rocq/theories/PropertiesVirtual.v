(** * C69: changing the virtual format of a file being read *)
From Verif Require Import Prelude PreludeFacts FileIO Rebuffer Reader ReaderSpec ReaderProofs PropertiesReader ByteOrder Convert Float Arrange ArrangeProofs Rates Memory Virtual.
From Coq Require Import Lia.

(** ** Specification *)

(** What the caller has set: the file's format (only its PCM mapping can be changed), the virtual format, the matrix. *)
Record settings := ST { g_file : format; g_user : format; g_matrix : option (list (list spec_float)) }.
(** The effect of a call on the settings. *)
Definition apply (s : settings) (o : vop) : settings :=
  match o with
  | SetByteOrder o => ST (g_file s) (withOrder (g_user s) o) (g_matrix s)
  | SetSampleFormat sf w => match setSampleFormat (g_user s) sf w with Some v => ST (g_file s) v (g_matrix s) | None => s end
  | SetChannels n => ST (g_file s) (withChannels (g_user s) n) None
  | SetMapping p => ST (g_file s) (withPCM (g_user s) p) (g_matrix s)
  | SetTrackMapping p => ST (withPCM (g_file s) p) (g_user s) (g_matrix s)
  | SetMatrix None => ST (g_file s) (g_user s) None
  | SetMatrix (Some m) => ST (g_file s) (g_user s) (Some (groups (Z.to_nat (channelCount (g_file s))) (Z.to_nat (channelCount (g_user s))) m))
  | _ => s
  end.
Definition setAll (s : settings) (ops : list vop) : settings := fold_left apply ops s.
(** The settings right after opening: the file's format, native byte order, uncompressed. *)
Definition initial (host : order) (f : format) : settings :=
  ST f {| sampleFormat := sampleFormat f; sampleWidth := sampleWidth f; channelCount := channelCount f; byteOrder := host; compressed := false; pcm := pcm f |} None.

(** A frame of the file as the caller sees it under some settings: the converter chain of C59. *)
Definition view (wrapv : bool) (host : order) (s : settings) : frame -> res frame :=
  match arrange wrapv host true (g_file s) (g_user s) (g_matrix s) with Ok (Some ms) => runChain ms | _ => fun _ => UB end.
Definition convertible (wrapv : bool) (host : order) (s : settings) : Prop :=
  exists ms, arrange wrapv host true (g_file s) (g_user s) (g_matrix s) = Ok (Some ms).

(** An array of the file's frames, a position, and the settings. *)
Fixpoint srun (wrapv : bool) (host : order) (frames : list frame) (s : settings) (pos : Z) (ops : list vop) : list (rout (res frame)) :=
  match ops with
  | [] => []
  | o :: ops' =>
      let total := zlen frames in
      match o with
      | VRead n => let k := Z.max 0 (Z.min n (total - pos)) in
          Frames (map Some (map (view wrapv host s) (zfirstn k (zskipn pos frames)))) :: srun wrapv host frames s (pos + k) ops'
      | VSeek k => let p := if k <? 0 then pos else if total <? k then total - 1 else k in
          Number p :: srun wrapv host frames s p ops'
      | VTell => Number pos :: srun wrapv host frames s pos ops'
      | VFrameCount => Number total :: srun wrapv host frames s pos ops'
      | SetSampleFormat sf w => Number (match setSampleFormat (g_user s) sf w with Some _ => 0 | None => -1 end) :: srun wrapv host frames (apply s o) pos ops'
      | _ => Number 0 :: srun wrapv host frames (apply s o) pos ops'
      end
  end.
(** Where the calls leave the position. *)
Fixpoint posAfter (total pos : Z) (ops : list vop) : Z :=
  match ops with
  | [] => pos
  | VRead n :: ops' => posAfter total (pos + Z.max 0 (Z.min n (total - pos))) ops'
  | VSeek k :: ops' => posAfter total (if k <? 0 then pos else if total <? k then total - 1 else k) ops'
  | _ :: ops' => posAfter total pos ops'
  end.

(** The calls covered.  [marked]: the virtual format was changed, or the file just opened, and no call has used it yet.
    [late]: a matrix was set when that was not the case; until the chain is built again no frames may be read
    (see [C69_late_matrix_refuted]).  The rate may only be set to the file's ([C69_virtual_rate_refuted]). *)
Fixpoint legal (wrapv : bool) (host : order) (rate : spec_float) (total : Z) (s : settings) (pos : Z) (marked late : bool) (ops : list vop) : Prop :=
  match ops with
  | [] => True
  | o :: ops' =>
      match o with
      | VRead n => convertible wrapv host s /\ (marked = true \/ late = false) /\
          legal wrapv host rate total s (pos + Z.max 0 (Z.min n (total - pos))) false false ops'
      | VSeek k => convertible wrapv host s /\ (0 < total \/ k <= 0) /\
          legal wrapv host rate total s (if k <? 0 then pos else if total <? k then total - 1 else k) false
            (late && negb marked && ((k <? 0) || (k =? pos))) ops'
      | VTell | VFrameCount => convertible wrapv host s /\ legal wrapv host rate total s pos false (late && negb marked) ops'
      | SetRate r => r = rate /\ legal wrapv host rate total s pos true late ops'
      | SetMatrix None => legal wrapv host rate total (apply s o) pos marked (late || negb marked) ops'
      | SetMatrix (Some m) =>
          channelCount (g_user s) * channelCount (g_file s) <= zlen m /\ inS 32 (channelCount (g_user s) * channelCount (g_file s)) = true /\
          legal wrapv host rate total (apply s o) pos marked (late || negb marked) ops'
      | SetSampleFormat sf w => legal wrapv host rate total (apply s o) pos (match setSampleFormat (g_user s) sf w with Some _ => true | None => marked end) late ops'
      | _ => legal wrapv host rate total (apply s o) pos true late ops'
      end
  end.

(** ** Proofs *)
Section Proofs.
Context {B : Build}.
Variable wrapv : bool.
Variable host : order.
Variable c : codec frame.
Variables (bytes : list Z) (first total : Z) (stream : list frame) (rate : spec_float).
Hypothesis HS : streamOf c bytes first total stream.
Hypothesis HT : total < 2 ^ 48.
Hypothesis HR : usualRate rate.
Notation inv := (inv c true bytes first total stream).
Notation frames := (zfirstn total stream).

Definition weak (st : rstate frame) (pos : Z) : Prop :=
  fbytes (rs_file st) = bytes /\ t_first (rs_track st) = first /\ t_totalf (rs_track st) = total /\ t_nextv (rs_track st) = pos /\ 0 <= pos <= total /\
  match c with Blocks fpp _ _ => zlen (r_buffer (rs_reb st)) = fpp | _ => True end.
Lemma inv_weak st pos : inv st pos -> weak st pos.
Proof. intros (I1 & I2 & I3 & I4 & I5 & I6 & I7 & I8 & I9). unfold weak. auto 10. Qed.

Lemma resetAt_same st pos : weak st pos -> resetAt c pos pos total st = setupRead c st.
Proof. intros (_ & E1 & E2 & E3 & _). unfold resetAt, setupRead. rewrite E2, E3. destruct c; reflexivity. Qed.

Record agree (st : vstate) (s : settings) : Prop := {
  ag_file : v_file st = g_file s; ag_frate : v_frate st = rate; ag_user : v_user st = g_user s; ag_vrate : v_vrate st = rate;
  ag_matrix : v_matrix st = g_matrix s; ag_comp : compressed (g_user s) = false }.
Lemma setup_ok st s pos : agree st s -> weak (v_rs st) pos -> convertible wrapv host s ->
  exists ms r, setup wrapv host c st = Ok (Some (VS (v_file st) (v_frate st) (v_user st) (v_vrate st) (v_matrix st) false ms r)) /\
    arrange wrapv host true (g_file s) (g_user s) (g_matrix s) = Ok (Some ms) /\ inv r pos.
Proof.
  intros A W [ms M]. destruct A as [A1 A2 A3 A4 A5 A6]. pose proof W as (W1 & W2 & W3 & W4 & W5 & W6).
  exists ms, (setupRead c (v_rs st)). split; [|split; [exact M|]].
  - unfold setup. rewrite A1, A2, A3, A4, A5, A6, M, W3, W4.
    rewrite (scaleFrame_same pos rate) by (assumption || lia). cbn [rbind]. replace (total =? -1) with false by lia.
    rewrite (scaleTotal_same total rate) by (assumption || lia). cbn [rbind]. rewrite (scaleFrame_same pos rate) by (assumption || lia). cbn [rbind].
    rewrite (resetAt_same _ pos W). reflexivity.
  - apply (setup_inv c true bytes first total stream HS (v_rs st) pos eq_refl W1 W2 W3 W4 W5 W6).
Qed.

Definition vinv (st : vstate) (s : settings) (pos : Z) (marked late : bool) : Prop :=
  agree st s /\ weak (v_rs st) pos /\ v_dirty st = marked /\
  (marked = false -> inv (v_rs st) pos /\ (late = false -> arrange wrapv host true (g_file s) (g_user s) (g_matrix s) = Ok (Some (v_chain st)))).

Lemma refresh_ok st s pos marked late : vinv st s pos marked late -> convertible wrapv host s ->
  exists st', refresh wrapv host c st = Ok (Some st') /\ vinv st' s pos false (late && negb marked).
Proof.
  intros (A & W & D & I) C. unfold refresh. rewrite D. destruct marked.
  - destruct (setup_ok st s pos A W C) as (ms & r & E & M & J). eexists. split; [exact E|].
    destruct A. split; [constructor; assumption|]. split; [apply inv_weak; exact J|]. split; [reflexivity|]. intros _. split; [exact J|]. intros _. exact M.
  - exists st. split; [reflexivity|]. cbn [negb]. rewrite andb_true_r. split; [exact A|]. split; [exact W|]. split; [exact D|exact I].
Qed.

Lemma vrun_ok ops : forall st s pos marked late, vinv st s pos marked late -> legal wrapv host rate total s pos marked late ops ->
  vrun wrapv host c true st ops = Ok (srun wrapv host frames s pos ops).
Proof.
  assert (HT0 : 0 <= total <= zlen stream) by (destruct HS as (_ & HT' & _); lia).
  assert (Lt : zlen frames = total) by (rewrite zlen_firstn by lia; lia).
  induction ops as [|o ops IH]; intros st s pos marked late V L; [reflexivity|]. cbn [legal] in L. cbn [vrun srun]. rewrite Lt.
  assert (Mark : forall s' v' f' m' late', g_file s' = f' -> g_user s' = v' -> g_matrix s' = m' -> compressed v' = false -> vinv (dirtyWith st f' v' (v_vrate st) m') s' pos true late').
  { intros s' v' f' m' late' <- <- <- Cv. destruct V as ([] & W & _). split; [constructor; try assumption; reflexivity|]. split; [exact W|]. split; [reflexivity|discriminate]. }
  assert (Cu : compressed (g_user s) = false) by (destruct V as ([] & _); assumption).
  assert (Au : v_user st = g_user s /\ v_file st = g_file s /\ v_matrix st = g_matrix s /\ v_vrate st = rate) by (destruct V as ([] & _); auto). destruct Au as (Au & Af & Am & Ar).
  destruct o as [n|k| | |o|sf w|n|r|p|p|m]; cbn [vstep].
  - destruct L as (C & Q & L). unfold vRead. destruct (refresh_ok _ _ _ _ _ V C) as (st' & E & V'). rewrite E. cbn [rbind]. clear E V st Mark Au Af Am Ar. rename st' into st, V' into V.
    destruct V as (A & W & D & I). destruct (I eq_refl) as [J M]. clear I. assert (Ml : late && negb marked = false) by (destruct Q as [-> | ->]; [apply andb_false_r|reflexivity]). specialize (M Ml).
    destruct (afReadFrames_ok c (runChain (v_chain st)) (negb (isNil (v_chain st))) true bytes first total stream HS (v_rs st) pos n J) as (r & E & J').
    cbv zeta in E, J'. set (k := Z.max 0 (Z.min n (total - pos))) in *. rewrite E. cbn [rbind].
    rewrite (IH (onRS st r) s (pos + k) false false); [|split; [destruct A; constructor; assumption|]; split; [apply inv_weak; exact J'|]; split; [exact D|]; intros _; split; [exact J'|intros _; exact M]|exact L].
    cbn [rbind]. unfold view. rewrite M. enough (X : zfirstn k (zskipn pos stream) = zfirstn k (zskipn pos frames)) by (rewrite X; reflexivity).
    destruct W as (_ & _ & _ & _ & W5 & _).
    replace (zskipn pos frames) with (zfirstn (total - pos) (zskipn pos stream)).
    + rewrite zfirstn_zfirstn. f_equal. unfold k. lia.
    + unfold zskipn, zfirstn. rewrite skipn_firstn_comm. f_equal. lia.
  - destruct L as (C & Q & L). unfold vSeek. destruct (refresh_ok _ _ _ _ _ V C) as (st' & E & V'). rewrite E. cbn [rbind]. clear E V st Mark Au Af Am Ar. rename st' into st, V' into V.
    pose proof V as (A & W & D & I). destruct (I eq_refl) as [J M]. clear I. pose proof W as (W1 & W2 & W3 & W4 & W5 & W6). pose proof J as (_ & _ & J3 & _). rewrite W4, J3.
    destruct (Z.ltb_spec k 0) as [Hneg|Hk].
    { cbn [rbind]. cbn [orb] in L. rewrite andb_true_r in L. rewrite (IH st s pos false _ V L). reflexivity. }
    cbn [orb] in L. destruct (Z.eqb_spec k pos) as [->|Hne].
    { cbn [rbind]. rewrite andb_true_r in L. destruct (Z.ltb_spec total pos); [lia|]. rewrite (IH st s pos false _ V L). reflexivity. }
    rewrite andb_false_r in L. replace (total =? -1) with false by lia. cbn [negb andb].
    set (q := if total <? k then total - 1 else k) in *. assert (Hq : 0 <= q <= total) by (unfold q; destruct (Z.ltb_spec total k); lia). clearbody q.
    set (st1 := onRS st (setTrack (v_rs st) (setNextv (rs_track (v_rs st)) q))).
    assert (A1 : agree st1 s) by (destruct A; constructor; assumption).
    assert (Wk : weak (v_rs st1) q) by (unfold weak, st1, onRS, setTrack, setNextv; cbn; auto 10).
    destruct (setup_ok st1 s q A1 Wk C) as (ms & r & E & M' & J'). rewrite E. cbn [rbind v_rs].
    assert (Nv : t_nextv (rs_track r) = q) by (destruct J' as (_ & _ & _ & J4 & _); exact J4). rewrite Nv.
    rewrite (IH _ s q false false); [reflexivity| |exact L].
    split; [destruct A; constructor; assumption|]. split; [apply inv_weak; exact J'|]. split; [reflexivity|]. intros _. split; [exact J'|intros _; exact M'].
  - destruct L as (C & L). unfold vSeek. destruct (refresh_ok _ _ _ _ _ V C) as (st' & E & V'). rewrite E. cbn [rbind].
    pose proof V' as (_ & W & _). replace (t_nextv (rs_track (v_rs st'))) with pos by (destruct W as (_ & _ & _ & -> & _); reflexivity).
    cbn [Z.ltb Z.compare rbind]. rewrite (IH st' s pos false _ V' L). reflexivity.
  - destruct L as (C & L). unfold vFrameCount. destruct (refresh_ok _ _ _ _ _ V C) as (st' & E & V'). rewrite E. cbn [rbind].
    pose proof V' as (_ & _ & _ & I). destruct (I eq_refl) as [(_ & _ & J3 & _) _]. rewrite J3. rewrite (IH st' s pos false _ V' L). reflexivity.
  - cbn [rbind]. rewrite (IH _ (apply s (SetByteOrder o)) pos true late); [reflexivity| |exact L]. apply Mark; cbn; rewrite ?Au, ?Af, ?Am; try reflexivity. exact Cu.
  - rewrite Au. destruct (setSampleFormat (g_user s) sf w) as [v|] eqn:Ev; cbn [rbind].
    + rewrite (IH _ (apply s (SetSampleFormat sf w)) pos true late); [reflexivity| |exact L]. apply Mark; cbn [apply]; rewrite ?Ev; cbn [g_file g_user g_matrix]; rewrite ?Af, ?Am; try reflexivity.
      unfold setSampleFormat in Ev. destruct sf; repeat match type of Ev with
        | (if ?b then _ else _) = _ => destruct b; [discriminate|]
        | context [match ?x with _ => _ end] => destruct x
        end; injection Ev as <-; exact Cu.
    + replace (apply s (SetSampleFormat sf w)) with s in * by (cbn; rewrite Ev; reflexivity). rewrite (IH st s pos marked late V L). reflexivity.
  - cbn [rbind]. rewrite (IH _ (apply s (SetChannels n)) pos true late); [reflexivity| |exact L]. apply Mark; cbn; rewrite ?Au, ?Af, ?Am; try reflexivity. exact Cu.
  - destruct L as [-> L]. replace (SFltb rate (S754_zero false)) with false.
    2:{ clear -HR. destruct rate as [| | |[]]; try contradiction. reflexivity. }
    cbn [rbind]. rewrite (IH _ s pos true late); [reflexivity| |exact L]. rewrite <- Ar. apply Mark; try (symmetry; assumption). rewrite Au. exact Cu.
  - cbn [rbind]. rewrite (IH _ (apply s (SetMapping p)) pos true late); [reflexivity| |exact L]. apply Mark; cbn; rewrite ?Au, ?Af, ?Am; try reflexivity. exact Cu.
  - cbn [rbind]. rewrite (IH _ (apply s (SetTrackMapping p)) pos true late); [reflexivity| |exact L]. apply Mark; cbn; rewrite ?Au, ?Af, ?Am; try reflexivity. exact Cu.
  - assert (G : forall m', legal wrapv host rate total (ST (g_file s) (g_user s) m') pos marked (late || negb marked) ops ->
       vrun wrapv host c true (VS (v_file st) (v_frate st) (v_user st) (v_vrate st) m' (v_dirty st) (v_chain st) (v_rs st)) ops = Ok (srun wrapv host frames (ST (g_file s) (g_user s) m') pos ops)).
    { intros m' L'. apply (IH _ _ pos marked (late || negb marked)); [|exact L']. destruct V as ([] & W & D & I).
      split; [constructor; try assumption; reflexivity|]. split; [exact W|]. split; [exact D|]. intros Em. destruct (I Em) as [J _]. split; [exact J|]. rewrite Em. rewrite orb_true_r. discriminate. }
    destruct m as [m|].
    + destruct L as (L1 & L2 & L). rewrite Au, Af, L2. replace (channelCount (g_user s) * channelCount (g_file s) <=? zlen m) with true by lia. cbn [andb rbind].
      rewrite <- Au, <- Af. rewrite Au, Af. rewrite <- Au at 1. rewrite <- Af at 1. rewrite (G _ L). reflexivity.
    + cbn [rbind]. rewrite (G _ L). reflexivity.
Qed.
End Proofs.

(** ** Histories *)
Lemma setAll_app s a b : setAll s (a ++ b) = setAll (setAll s a) b.
Proof. apply fold_left_app. Qed.
Lemma srun_app wrapv host frames ops1 : forall s pos ops2,
  srun wrapv host frames s pos (ops1 ++ ops2) = srun wrapv host frames s pos ops1 ++ srun wrapv host frames (setAll s ops1) (posAfter (zlen frames) pos ops1) ops2.
Proof.
  induction ops1 as [|o ops1 IH]; intros s pos ops2; [reflexivity|].
  destruct o; cbn [app srun setAll fold_left posAfter]; rewrite IH; reflexivity.
Qed.
(** The flags after some calls. *)
Fixpoint flagsAfter (total : Z) (s : settings) (pos : Z) (marked late : bool) (ops : list vop) : bool * bool :=
  match ops with
  | [] => (marked, late)
  | o :: ops' =>
      let s' := apply s o in
      match o with
      | VRead n => flagsAfter total s' (pos + Z.max 0 (Z.min n (total - pos))) false false ops'
      | VSeek k => flagsAfter total s' (if k <? 0 then pos else if total <? k then total - 1 else k) false (late && negb marked && ((k <? 0) || (k =? pos))) ops'
      | VTell | VFrameCount => flagsAfter total s' pos false (late && negb marked) ops'
      | SetMatrix _ => flagsAfter total s' pos marked (late || negb marked) ops'
      | SetSampleFormat sf w => flagsAfter total s' pos (match setSampleFormat (g_user s) sf w with Some _ => true | None => marked end) late ops'
      | _ => flagsAfter total s' pos true late ops'
      end
  end.
Lemma legal_app wrapv host rate total ops1 : forall s pos m l ops2,
  legal wrapv host rate total s pos m l (ops1 ++ ops2) <->
  legal wrapv host rate total s pos m l ops1 /\
  legal wrapv host rate total (setAll s ops1) (posAfter total pos ops1) (fst (flagsAfter total s pos m l ops1)) (snd (flagsAfter total s pos m l ops1)) ops2.
Proof.
  induction ops1 as [|o ops1 IH]; intros s pos m l ops2; [cbn; tauto|].
  destruct o as [n|k| | |o|sf w|n|r|p|p|[mm|]]; cbn [app legal posAfter flagsAfter setAll fold_left]; rewrite IH; fold (setAll s ops1); cbn [apply]; unfold setAll; tauto.
Qed.

(** *** When every call is covered *)
Definition known (s : settings) : Prop := fmtTy (g_file s) <> None /\ fmtTy (g_user s) <> None.
Lemma apply_known s o : known s -> known (apply s o).
Proof.
  intros [K1 K2]. assert (W : forall f p, fmtTy (withPCM f p) = fmtTy f) by reflexivity. assert (W2 : forall f n, fmtTy (withChannels f n) = fmtTy f) by reflexivity. assert (W3 : forall f n, fmtTy (withOrder f n) = fmtTy f) by reflexivity.
  destruct o as [n|k| | |o|sf w|n|r|p|p|[m|]]; cbn [apply]; unfold known; cbn [g_file g_user]; rewrite ?W, ?W2, ?W3; try (split; assumption).
  destruct (setSampleFormat (g_user s) sf w) as [v|] eqn:E; [|split; assumption]. cbn [g_file g_user]. split; [exact K1|]. clear -E. unfold setSampleFormat in E.
  assert (I : (sf = TWOSCOMP \/ sf = UNSIGNED) -> (w <? 1) || (32 <? w) = false -> fmtTy v <> None).
  { intros Hs Hw.
    assert (Hq : Z.quot (w + 7) 8 = 1 \/ Z.quot (w + 7) 8 = 2 \/ Z.quot (w + 7) 8 = 3 \/ Z.quot (w + 7) 8 = 4).
    { rewrite Z.quot_div_nonneg by lia. assert (1 <= (w + 7) / 8 <= 4); [|lia]. split; [apply Z.div_le_lower_bound; lia|]. assert ((w + 7) / 8 < 5); [|lia]. apply Z.div_lt_upper_bound; lia. }
    rewrite Hw in E. unfold fmtTy, getFormatCode, bytesPerSample.
    destruct Hs as [-> | ->]; destruct Hq as [Q|[Q|[Q|Q]]]; rewrite Q in E; injection E as <-; cbn [sampleFormat sampleWidth compressed]; rewrite Q, andb_false_r; cbn; discriminate. }
  destruct sf.
  - destruct ((w <? 1) || (32 <? w)) eqn:Hw; [discriminate|]. apply I; auto.
  - destruct ((w <? 1) || (32 <? w)) eqn:Hw; [discriminate|]. apply I; auto.
  - injection E as <-. cbn. discriminate.
  - injection E as <-. cbn. discriminate.
Qed.
(** Where signed negation wraps (as with -fwrapv), every combination of formats can be converted. *)
Lemma known_convertible host s : known s -> convertible true host s.
Proof.
  intros [K1 K2]. unfold convertible, arrange, fmtTy in *. destruct (getFormatCode (g_file s)) as [infc|] eqn:E1; [|contradiction]. destruct (getFormatCode (g_user s)) as [outfc|] eqn:E2; [|contradiction].
  cbv zeta.
  assert (N : forall n, exists z, negShift true n = Ok z) by (intros n; unfold negShift; destruct (inS 32 _); eexists; reflexivity).
  match goal with |- context [arrangeCore ?a ?b ?c' ?d ?e ?f ?g ?h] => assert (A : exists l, arrangeCore a b c' d e f g h = Ok l) end.
  2:{ destruct A as [l ->]. cbn [rbind]. eexists. reflexivity. }
  unfold arrangeCore.
  match goal with |- exists l, rbind ?r _ = _ => assert (A1 : exists im, r = Ok im) end.
  { destruct (isUnsigned (g_file s)); [|eexists; reflexivity]. destruct infc as [c| |]; try (eexists; reflexivity). destruct (N (bits c)) as [z ->]. eexists; reflexivity. }
  destruct A1 as [im ->]. cbn [rbind].
  match goal with |- context [let '(m5, infc) := ?x in _] => destruct x as [m5 infc'] end.
  match goal with |- exists l, rbind ?r _ = _ => assert (A1 : exists im, r = Ok im) end.
  { destruct infc' as [c| |], outfc as [c'| |]; try (eexists; reflexivity). destruct (codenum c =? codenum c'); [eexists; reflexivity|]. destruct (N (bits c')) as [z ->]. eexists; reflexivity. }
  destruct A1 as [m7 ->]. cbn [rbind].
  match goal with |- exists l, rbind ?r _ = _ => assert (A1 : exists im, r = Ok im) end.
  { destruct (isUnsigned (g_user s)); [|eexists; reflexivity]. destruct outfc as [c| |]; try (eexists; reflexivity). destruct (N (bits c)) as [z ->]. eexists; reflexivity. }
  destruct A1 as [m11 ->]. cbn [rbind]. eexists. reflexivity.
Qed.
(** Calls other than setting a matrix or a rate. *)
Definition ordinary (o : vop) : Prop := match o with SetMatrix _ | SetRate _ => False | _ => True end.
Lemma ordinary_legal host rate total ops : 0 < total -> Forall ordinary ops -> forall s pos m, known s -> legal true host rate total s pos m false ops.
Proof.
  intros T O. induction O as [|o ops Ho O IH]; intros s pos m K; [exact I|]. pose proof (known_convertible host s K) as C. pose proof (apply_known s o K) as K'.
  destruct o; cbn [legal ordinary] in *; try contradiction; cbn [andb]; try (apply IH; exact K'); auto 10.
Qed.

(** ** C69 *)

(** Every sequence of reads, seeks, tells, frame counts and changes of the virtual format behaves as an array of the file's
    frames: the position is where the calls left it, and the frames come out in the format set last. *)
Theorem C69_reads_follow_the_settings :
  forall (B : Build) wrapv host c f rate bytes first total frames ops,
    holds c bytes first total frames -> total < 2 ^ 48 -> usualRate rate ->
    legal wrapv host rate total (initial host f) 0 true false ops ->
    vrun wrapv host c true (vopen host c f rate bytes first total) ops = Ok (srun wrapv host frames (initial host f) 0 ops).
Proof.
  intros B wrapv host c f rate bytes first total frames ops H HT HR L. destruct (holds_stream c bytes first total frames H) as (stream & HS & ->).
  apply (vrun_ok wrapv host c bytes first total stream rate HS HT HR ops (vopen host c f rate bytes first total) (initial host f) 0 true false); [|exact L].
  split; [constructor; reflexivity|]. split; [|split; [reflexivity|discriminate]].
  destruct HS as (F1 & F2 & F3). unfold weak, vopen. cbn. split; [reflexivity|]. split; [reflexivity|]. split; [reflexivity|]. split; [reflexivity|]. split; [lia|].
  destruct c; [exact I|]. cbn. destruct F3 as (Bp & _). rewrite zlen_repeat by lia. reflexivity.
Qed.
Print Assumptions C69_reads_follow_the_settings.

(** With the rate and the matrix left alone, there is no other condition: any format may be set at any time. *)
Theorem C69_any_format_any_time :
  forall (B : Build) host c f rate bytes first total frames ops,
    holds c bytes first total frames -> 0 < total < 2 ^ 48 -> usualRate rate -> fmtTy f <> None -> Forall ordinary ops ->
    vrun true host c true (vopen host c f rate bytes first total) ops = Ok (srun true host frames (initial host f) 0 ops).
Proof.
  intros B host c f rate bytes first total frames ops H HT HR K O. apply (C69_reads_follow_the_settings B true host c f rate bytes first total frames ops H); try assumption; try lia; try reflexivity.
  apply ordinary_legal; [lia|exact O|]. split; [exact K|]. cbn [initial g_user]. intros E. apply K. rewrite <- E. unfold fmtTy, getFormatCode, bytesPerSample, isUnsigned. cbn [sampleFormat sampleWidth compressed]. rewrite !andb_false_r. reflexivity.
Qed.
Print Assumptions C69_any_format_any_time.

(** Setting the virtual format does not move the position. *)
Definition setter (o : vop) : Prop := match o with VRead _ | VSeek _ | VTell | VFrameCount => False | _ => True end.
Lemma srun_length wrapv host frames ops : forall s pos, length (srun wrapv host frames s pos ops) = length ops.
Proof. induction ops as [|o ops IH]; intros s pos; [reflexivity|]. destruct o; cbn [srun length]; rewrite IH; reflexivity. Qed.
Lemma posAfter_setters total sets : Forall setter sets -> forall pos, posAfter total pos sets = pos.
Proof. intros H. induction H as [|o sets Ho H IH]; intros pos; [reflexivity|]. destruct o; cbn [setter posAfter] in *; try contradiction; apply IH. Qed.
Theorem C69_position_kept :
  forall (B : Build) wrapv host c f rate bytes first total frames ops sets,
    holds c bytes first total frames -> total < 2 ^ 48 -> usualRate rate -> Forall setter sets ->
    legal wrapv host rate total (initial host f) 0 true false (ops ++ [VTell] ++ sets ++ [VTell]) ->
    exists outs1 outs2 p, vrun wrapv host c true (vopen host c f rate bytes first total) (ops ++ [VTell] ++ sets ++ [VTell]) = Ok (outs1 ++ [Number p] ++ outs2 ++ [Number p]) /\
      length outs1 = length ops /\ length outs2 = length sets.
Proof.
  intros B wrapv host c f rate bytes first total frames ops sets H HT HR Hs L. rewrite (C69_reads_follow_the_settings B wrapv host c f rate bytes first total frames _ H HT HR L).
  rewrite srun_app. cbn [app srun]. rewrite srun_app. cbn [srun]. rewrite (posAfter_setters _ sets Hs).
  eexists _, _, _. split; [reflexivity|]. split; apply srun_length.
Qed.
Print Assumptions C69_position_kept.

(** Two files with the same contents on which the same formats are in force deliver the same frames from the same frame
    number on, whatever was read, sought or set before. *)
Theorem C69_only_the_settings_matter :
  forall (B : Build) wrapv host c f rate bytes first total frames ops1 ops2 k n,
    holds c bytes first total frames -> total < 2 ^ 48 -> usualRate rate -> 0 <= k <= total -> 0 <= n ->
    setAll (initial host f) ops1 = setAll (initial host f) ops2 ->
    legal wrapv host rate total (initial host f) 0 true false (ops1 ++ [VSeek k; VRead n; VTell]) ->
    legal wrapv host rate total (initial host f) 0 true false (ops2 ++ [VSeek k; VRead n; VTell]) ->
    exists outs1 outs2 l,
      vrun wrapv host c true (vopen host c f rate bytes first total) (ops1 ++ [VSeek k; VRead n; VTell]) = Ok (outs1 ++ [Number k; Frames l; Number (k + zlen l)]) /\
      vrun wrapv host c true (vopen host c f rate bytes first total) (ops2 ++ [VSeek k; VRead n; VTell]) = Ok (outs2 ++ [Number k; Frames l; Number (k + zlen l)]) /\
      zlen l = Z.min n (total - k).
Proof.
  intros B wrapv host c f rate bytes first total frames ops1 ops2 k n H HT HR Hk Hn E L1 L2.
  rewrite (C69_reads_follow_the_settings B wrapv host c f rate bytes first total frames _ H HT HR L1), (C69_reads_follow_the_settings B wrapv host c f rate bytes first total frames _ H HT HR L2).
  rewrite !srun_app, E. cbn [srun]. rewrite (holds_len _ _ _ _ _ H). destruct (Z.ltb_spec k 0); [lia|]. destruct (Z.ltb_spec total k); [lia|].
  set (q := Z.max 0 (Z.min n (total - k))). exists (srun wrapv host frames (initial host f) 0 ops1), (srun wrapv host frames (initial host f) 0 ops2), (map Some (map (view wrapv host (setAll (initial host f) ops2)) (zfirstn q (zskipn k frames)))).
  assert (Lq : zlen (map (@Some (res frame)) (map (view wrapv host (setAll (initial host f) ops2)) (zfirstn q (zskipn k frames)))) = q).
  { rewrite !zlen_map, zlen_firstn, zlen_skipn by lia. rewrite (holds_len _ _ _ _ _ H). lia. }
  rewrite Lq. split; [reflexivity|]. split; [reflexivity|]. unfold q. lia.
Qed.
Print Assumptions C69_only_the_settings_matter.

(** ** Concrete cases: a stereo 16-bit file *)
Definition exStereo : format := {| sampleFormat := TWOSCOMP; sampleWidth := 16; channelCount := 2; byteOrder := LittleEndian; compressed := false; pcm := signedMapping kInt16 |}.
Definition exCodec : codec frame := PerFrame true 4 (fun b => map (dec LittleEndian (TI kInt16)) (groups 2 2 b)).
Definition exBytes : list Z := [1; 0; 3; 0; 5; 0; 7; 0; 9; 0; 11; 0; 13; 0; 15; 0].
Definition exFrames : list frame := [[SI kInt16 1; SI kInt16 3]; [SI kInt16 5; SI kInt16 7]; [SI kInt16 9; SI kInt16 11]; [SI kInt16 13; SI kInt16 15]].
Definition hz (r : Z) : spec_float := dOfZ r.
Example C69_holds : holds exCodec exBytes 0 4 exFrames /\ usualRate (hz 44100) /\ fmtTy exStereo <> None.
Proof. split; [unfold holds, exCodec; repeat split; vm_compute; congruence|]. split; [vm_compute; repeat split; congruence|discriminate]. Qed.
(** Frame by frame in different formats: as it is, mono 8 bit, stereo 32 bit, big-endian. *)
Example C69_example (B : Build) :
  vrun true LittleEndian exCodec true (vopen LittleEndian exCodec exStereo (hz 44100) exBytes 0 4)
    [VRead 1; SetChannels 1; SetSampleFormat TWOSCOMP 24; VTell; VRead 1; SetChannels 2; SetMatrix None; SetSampleFormat UNSIGNED 16; VRead 1; SetSampleFormat TWOSCOMP 99; VFrameCount; VRead 5]
  = Ok [Frames [Some (Ok [SI kInt16 1; SI kInt16 3])]; Number 0; Number 0; Number 1; Frames [Some (Ok [SI kInt24 1536])]; Number 0; Number 0; Number 0;
        Frames [Some (Ok [SU kInt16 32777; SU kInt16 32779])]; Number (-1); Number 4; Frames [Some (Ok [SU kInt16 32781; SU kInt16 32783])]].
Proof. vm_compute. reflexivity. Qed.
Example C69_legal_satisfiable :
  legal true LittleEndian (hz 44100) 4 (initial LittleEndian exStereo) 0 true false
    ([VRead 1; SetChannels 1; SetMatrix (Some [dOfZ 1; dOfZ 0]); VRead 1; SetMatrix (Some [dOfZ 0; dOfZ 1]); VSeek 0; VRead 4] ++ [VSeek 1; VRead 2; VTell]).
Proof.
  assert (K : known (initial LittleEndian exStereo)) by (split; discriminate).
  assert (KC : forall s, known s -> convertible true LittleEndian s) by (intros s; apply known_convertible).
  cbn [legal app]. repeat match goal with
  | |- _ /\ _ => split
  | |- convertible _ _ _ => apply KC; repeat (apply apply_known); exact K
  | |- True => exact I
  end; try (left; reflexivity); try (right; reflexivity); try (vm_compute; congruence); try reflexivity.
Qed.
Example C69_matrix_example (B : Build) :
  vrun true LittleEndian exCodec true (vopen LittleEndian exCodec exStereo (hz 44100) exBytes 0 4)
    [VRead 1; SetChannels 1; SetMatrix (Some [dOfZ 1; dOfZ 0]); VRead 1; SetMatrix (Some [dOfZ 0; dOfZ 1]); VSeek 0; VRead 4]
  = Ok [Frames [Some (Ok [SI kInt16 1; SI kInt16 3])]; Number 0; Number 0; Frames [Some (Ok [SI kInt16 5])]; Number 0; Number 0;
        Frames (map (fun z => Some (Ok [SI kInt16 z])) [3; 7; 11; 15])].
Proof. vm_compute. reflexivity. Qed.

(** A matrix set after the chain was built is not used until something else makes the library build it again: here the
    caller asks for the right channel and gets the left one. *)
Theorem C69_late_matrix_refuted :
  forall B : Build, exists left right,
    vrun true LittleEndian exCodec true (vopen LittleEndian exCodec exStereo (hz 44100) exBytes 0 4) [SetChannels 1; SetMatrix (Some left); VRead 1; SetMatrix (Some right); VRead 1]
      = Ok [Number 0; Number 0; Frames [Some (Ok [SI kInt16 1])]; Number 0; Frames [Some (Ok [SI kInt16 5])]] /\
    vrun true LittleEndian exCodec true (vopen LittleEndian exCodec exStereo (hz 44100) exBytes 0 4) [SetChannels 1; SetMatrix (Some right); VRead 1; VRead 1]
      = Ok [Number 0; Number 0; Frames [Some (Ok [SI kInt16 3])]; Frames [Some (Ok [SI kInt16 7])]].
Proof. intros B. exists [dOfZ 1; dOfZ 0], [dOfZ 0; dOfZ 1]. split; vm_compute; reflexivity. Qed.
Print Assumptions C69_late_matrix_refuted.

(** A virtual rate other than the file's changes the number of frames reported, but no frames are resampled.
    At twice the rate eight frames are promised: a read returns the four there are, or, when a conversion is in the chain,
    eight of which four were never stored.  At half the rate, frame 1 is the third frame of the file after a seek, and the
    second one after reading frame 0.  At rate 0 the frame count is the value llrint gives for a NaN. *)
Theorem C69_virtual_rate_refuted :
  forall B : Build,
    vrun true LittleEndian exCodec true (vopen LittleEndian exCodec exStereo (hz 44100) exBytes 0 4) [SetRate (hz 88200); VFrameCount; VRead 8; VTell]
      = Ok [Number 0; Number 8; Frames (map (fun x => Some (Ok x)) exFrames); Number 4] /\
    vrun true LittleEndian exCodec true (vopen LittleEndian exCodec exStereo (hz 44100) exBytes 0 4) [SetRate (hz 88200); SetSampleFormat UNSIGNED 16; VRead 8; VTell]
      = Ok [Number 0; Number 0; Frames (map (fun x => Some (Ok [SU kInt16 (32768 + x); SU kInt16 (32770 + x)])) [1; 5; 9; 13] ++ [None; None; None; None]); Number 8] /\
    vrun true LittleEndian exCodec true (vopen LittleEndian exCodec exStereo (hz 44100) exBytes 0 4) [SetRate (hz 22050); VFrameCount; VRead 2; VSeek 1; VRead 1]
      = Ok [Number 0; Number 2; Frames [Some (Ok [SI kInt16 1; SI kInt16 3]); Some (Ok [SI kInt16 5; SI kInt16 7])]; Number 1; Frames [Some (Ok [SI kInt16 9; SI kInt16 11])]] /\
    vrun true LittleEndian exCodec true (vopen LittleEndian exCodec exStereo (hz 44100) exBytes 0 4) [SetRate (hz 0); VFrameCount] = UB.
Proof. intros B. split; [vm_compute; reflexivity|]. split; [vm_compute; reflexivity|]. split; vm_compute; reflexivity. Qed.
Print Assumptions C69_virtual_rate_refuted.

(** A channel matrix is used only when the numbers of channels differ: a matrix that exchanges the channels of a stereo
    file, set right after opening, has no effect. *)
Theorem C10_same_channel_count_refuted :
  forall B : Build,
    vrun true LittleEndian exCodec true (vopen LittleEndian exCodec exStereo (hz 44100) exBytes 0 4) [SetMatrix (Some [dOfZ 0; dOfZ 1; dOfZ 1; dOfZ 0]); VRead 1]
      = Ok [Number 0; Frames [Some (Ok [SI kInt16 1; SI kInt16 3])]].
Proof. intros B. vm_compute. reflexivity. Qed.
Print Assumptions C10_same_channel_count_refuted.
