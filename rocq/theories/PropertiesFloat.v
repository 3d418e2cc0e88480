(** * C52, C59 and the floating-point part of C09: the chain of sample converters *)
From Verif Require Import Prelude PreludeFacts ByteOrder Convert ConvertProofs Float FloatFacts Arrange ArrangeProofs FloatConv.

(** ** Running a chain without a channel matrix sample by sample *)
Fixpoint chain1 (ms : list module) (s : smp) : res smp :=
  match ms with [] => Ok s | m :: ms' => do s' <- run1 m s; chain1 ms' s' end.
Definition notMatrix (m : module) : bool := match m with MMatrix _ _ => false | _ => true end.

Lemma chain1_app l1 l2 s : chain1 (l1 ++ l2) s = do s' <- chain1 l1 s; chain1 l2 s'.
Proof. revert s. induction l1 as [|m l1 IH]; intros s; cbn; [reflexivity|]. destruct (run1 m s); cbn; auto. Qed.
Lemma rmapM_ok_inv {A C D} (f : A -> res C) (h : C -> res D) (g : A -> D) l : (forall x, In x l -> rbind (f x) h = Ok (g x)) ->
  exists l', rmapM f l = Ok l' /\ rmapM h l' = Ok (map g l).
Proof.
  induction l as [|x l IH]; intros H; cbn; [exists []; auto|].
  pose proof (H x (or_introl eq_refl)) as Hx. destruct (f x) as [y| | |]; try discriminate. cbn in Hx.
  destruct (IH (fun z Hz => H z (or_intror Hz))) as (l' & -> & E). exists (y :: l'). cbn. rewrite Hx. cbn. rewrite E. auto.
Qed.
Lemma rmapM_id {A C} (f : A -> res C) g l : (forall x, In x l -> f x = Ok (g x)) -> rmapM f l = Ok (map g l).
Proof. induction l as [|x l IH]; intros H; cbn; [reflexivity|]. rewrite (H x (or_introl eq_refl)). cbn. rewrite IH by (intros; apply H; right; auto). reflexivity. Qed.
Lemma runChain_map ms : forallb notMatrix ms = true -> forall g fr, (forall s, In s fr -> chain1 ms s = Ok (g s)) -> runChain ms fr = Ok (map g fr).
Proof.
  induction ms as [|m ms IH]; cbn [forallb]; intros HM g fr H.
  - cbn in *. f_equal. rewrite <- (map_id fr) at 1. apply map_ext_in. intros s Hs. specialize (H s Hs). congruence.
  - apply andb_true_iff in HM as [Hm HM]. cbn [runChain].
    assert (R : runModule m fr = rmapM (run1 m) fr) by (destruct m; try discriminate; reflexivity). rewrite R. clear R.
    cbn [chain1] in H. clear Hm. revert HM IH. intros HM IH.
    assert (P : exists fr', rmapM (run1 m) fr = Ok fr' /\ Forall2 (fun s s' => chain1 ms s' = Ok (g s)) fr fr').
    { clear - H. induction fr as [|s fr IHf]; cbn; [exists []; auto|].
      pose proof (H s (or_introl eq_refl)) as Hs. destruct (run1 m s) as [s'| | |]; try discriminate. cbn in Hs.
      destruct (IHf (fun z Hz => H z (or_intror Hz))) as (fr' & -> & E). exists (s' :: fr'). cbn. auto. }
    destruct P as (fr' & -> & F2). cbn [rbind].
    assert (G : map (fun s' => match chain1 ms s' with Ok y => y | _ => s' end) fr' = map g fr).
    { clear - F2. induction F2 as [|s s' fr fr' E _ IHf]; cbn; [reflexivity|]. rewrite E, IHf. reflexivity. }
    rewrite <- G. apply IH; auto. intros s' Hs'. clear - F2 Hs'. induction F2 as [|s s'' fr fr' E _ IHf]; [contradiction|]. destruct Hs' as [->|Hs']; [rewrite E; reflexivity|auto].
Qed.

Lemma chain_when_id b m ms s : (forall s, run1 m s = Ok s) -> chain1 (when b [m] ++ ms) s = chain1 ms s.
Proof. intros H. destruct b; cbn [when app chain1]; [rewrite H|]; reflexivity. Qed.
Lemma chain_bytes b1 b2 b3 b4 f1 f2 core s :
  chain1 (when b1 [MSwap] ++ when b2 [MExpand3 f1] ++ core ++ when b3 [MCompress3 f2] ++ when b4 [MSwap]) s = chain1 core s.
Proof.
  rewrite !chain_when_id by reflexivity. rewrite chain1_app. destruct (chain1 core s) as [s'| | |]; cbn [rbind]; auto. rewrite chain_when_id by reflexivity. rewrite <- (app_nil_r (when b4 _)), chain_when_id by reflexivity. reflexivity.
Qed.
Lemma notMatrix_bytes b1 b2 b3 b4 f1 f2 core : forallb notMatrix core = true ->
  forallb notMatrix (when b1 [MSwap] ++ when b2 [MExpand3 f1] ++ core ++ when b3 [MCompress3 f2] ++ when b4 [MSwap]) = true.
Proof. intros H. rewrite !forallb_app, H. destruct b1, b2, b3, b4; reflexivity. Qed.

(** ** C59: the chain delivers the requested format *)

(** Whatever the two formats, mappings, byte orders and channel counts: each converter gets samples of the type
    it expects, and the frame that comes out has the sample type of the target format and its number of
    channels.  ([good]: a result satisfies the condition; only arithmetic can be undefined.) *)
Theorem C59_chain_delivers_target_format :
  forall wrapv host isReading fin fout matrix ms t t' frame,
    fmtTy fin = Some t -> fmtTy fout = Some t' ->
    arrange wrapv host isReading fin fout matrix = Ok (Some ms) ->
    (match matrix with Some m => zlen (matrixRows isReading (channelCount fin) (channelCount fout) matrix) = channelCount fout | None => True end) ->
    0 <= channelCount fout ->
    zlen frame = channelCount fin -> Forall (fun s => tyOf s = t) frame ->
    good (fun frame' => zlen frame' = channelCount fout /\ Forall (fun s => tyOf s = t') frame') (runChain ms frame).
Proof.
  intros wrapv host rd fin fout matrix ms t t' fr H1 H2 HA HM HC HL HF.
  destruct (arrange_ty _ _ _ _ _ _ _ _ _ H1 H2 HA) as [ST SC].
  pose proof (runChain_ty ms t t' (channelCount fin) fr ST (conj HL HF)) as G. rewrite SC in G.
  assert (E : (if channelCount fin =? channelCount fout then channelCount fin else zlen (matrixRows rd (channelCount fin) (channelCount fout) matrix)) = channelCount fout).
  { destruct (Z.eqb_spec (channelCount fin) (channelCount fout)); [auto|]. destruct matrix as [m|]; [exact HM|].
    unfold matrixRows, zlen. rewrite map_length.
    assert (D : forall a b, length (default_matrix a b) = b).
    { intros a b. unfold default_matrix. repeat match goal with |- length (match ?x with _ => _ end) = _ => destruct x end; try reflexivity; unfold identity_rows; rewrite map_length, seq_length; reflexivity. }
    rewrite D. lia. }
  rewrite E in G. exact G.
Qed.
Print Assumptions C59_chain_delivers_target_format.

(** The widths a caller can ask for all have a code, so [arrange] does not fail. *)
Theorem C59_any_format_is_arranged :
  forall wrapv host isReading f0 f1 sf0 sf1 w0 w1 fin fout matrix,
    setSampleFormat f0 sf0 w0 = Some fin -> setSampleFormat f1 sf1 w1 = Some fout ->
    wrapv = true ->
    exists ms t t', arrange wrapv host isReading fin fout matrix = Ok (Some ms) /\ fmtTy fin = Some t /\ fmtTy fout = Some t'.
Proof.
  assert (S : forall f sf w g, setSampleFormat f sf w = Some g -> exists c, getFormatCode g = Some c /\ exists t, fmtTy g = Some t).
  { intros f sf w g H. assert (GC : exists c, getFormatCode g = Some c).
    { unfold setSampleFormat in H. destruct sf; try (injection H as <-; eexists; reflexivity);
      (destruct ((w <? 1) || (32 <? w)) eqn:W; [discriminate|]);
      assert (Hw : Z.quot (w + 7) 8 = 1 \/ Z.quot (w + 7) 8 = 2 \/ Z.quot (w + 7) 8 = 3 \/ Z.quot (w + 7) 8 = 4) by (rewrite Z.quot_div_nonneg by lia; lia);
      destruct Hw as [E|[E|[E|E]]]; rewrite E in H; injection H as <-; unfold getFormatCode, bytesPerSample; cbn [sampleFormat sampleWidth compressed]; rewrite E; rewrite !andb_false_r; eexists; reflexivity. }
    destruct GC as [c Hc]. exists c. split; [exact Hc|]. unfold fmtTy. rewrite Hc. destruct c; eexists; reflexivity. }
  intros wrapv host rd f0 f1 sf0 sf1 w0 w1 fin fout matrix H0 H1 ->.
  destruct (S _ _ _ _ H0) as (c0 & G0 & t & T0). destruct (S _ _ _ _ H1) as (c1 & G1 & t' & T1).
  unfold arrange. rewrite G0, G1. cbv zeta.
  assert (NS : forall c, exists z, negShift true (bits c) = Ok z) by (intros []; eexists; reflexivity).
  match goal with |- context[arrangeCore true ?a ?b c0 c1 ?p ?q ?r] => assert (C : exists l, arrangeCore true a b c0 c1 p q r = Ok l) end.
  { unfold arrangeCore. 
    match goal with |- exists l, rbind ?x _ = Ok l => assert (X : exists i, x = Ok i) end.
    { destruct (isUnsigned fin), c0 as [c| |]; try (eexists; reflexivity). destruct (NS c) as [z ->]. eexists; reflexivity. }
    destruct X as [i ->]. cbn [rbind].
    cbv zeta.
    match goal with |- exists l, (let (_, _) := ?x in _) = Ok l => destruct x as [m5 infc] end.
    match goal with |- exists l, rbind ?x _ = Ok l => assert (X : exists i, x = Ok i) end.
    { destruct infc as [ci| |], c1 as [co| |]; try (eexists; reflexivity). destruct (codenum ci =? codenum co); [eexists; reflexivity|]. destruct (NS co) as [z ->]. eexists; reflexivity. }
    destruct X as [m7 ->]. cbn [rbind].
    match goal with |- exists l, rbind ?x _ = Ok l => assert (X : exists i, x = Ok i) end.
    { destruct (isUnsigned fout), c1 as [c| |]; try (eexists; reflexivity). destruct (NS c) as [z ->]. eexists; reflexivity. }
    destruct X as [m11 ->]. eexists; reflexivity. }
  destruct C as [l ->]. cbn [rbind]. eexists _, t, t'. split; [reflexivity|]. auto.
Qed.
Print Assumptions C59_any_format_is_arranged.

(** By the letter of the C++ standard, building the chain from or to an unsigned 32-bit format, or from a
    narrower integer to 32 bits, overflows: -(1 << 31). *)
Theorem C59_arrange_32_refuted :
  ~ (forall host isReading f0 f1 sf0 sf1 w0 w1 fin fout matrix,
      setSampleFormat f0 sf0 w0 = Some fin -> setSampleFormat f1 sf1 w1 = Some fout ->
      arrange false host isReading fin fout matrix <> UB).
Proof.
  intros H. set (f := {| sampleFormat := TWOSCOMP; sampleWidth := 16; channelCount := 1; byteOrder := LittleEndian; compressed := false; pcm := signedMapping kInt16 |}).
  apply (H LittleEndian true f f TWOSCOMP TWOSCOMP 16 32 _ _ None eq_refl eq_refl). vm_compute. reflexivity.
Qed.
Print Assumptions C59_arrange_32_refuted.

(** ** C59: PCM mappings *)

(** A mapping (slope, intercept) says which sample values stand for 0 and for full scale.  With slopes that are powers of two,
    [2^a] and [2^b], and everything a multiple of [2^-t] of full scale so that no rounding takes place: a sample [X - P] steps above
    the input's zero becomes the sample [X - P] steps above the output's zero. *)
Definition unclipped (m : pcmInfo) (c : code) : Prop := SFltb (minClip m) (maxClip m) = false \/ trivialClip m c = true.
Definition numberOf (s : smp) : spec_float := match s with SI _ z => dOfZ z | SU _ z => dOfZ z | SF f => toDouble f | SD f => f end.

Lemma ddiv_pow2 a b : -400 <= a <= 400 -> -400 <= b <= 400 -> ddiv (pow2d b) (pow2d a) = pow2d (b - a).
Proof.
  intros Ha Hb. unfold ddiv, SFdiv, pow2d, SFdiv_core_binary. change (Zdigits2 4503599627370496) with 53.
  assert (E : Z.min (fexp 53 1024 (53 + (b - 52) - (53 + (a - 52)))) (b - 52 - (a - 52)) = b - a - 53) by (unfold fexp, emin; lia). rewrite E.
  replace (b - 52 - (a - 52) - (b - a - 53)) with 53 by lia. change (Z.shiftl 4503599627370496 53) with (4503599627370496 * 2 ^ 53).
  change (Z.div_eucl (4503599627370496 * 2 ^ 53) 4503599627370496) with (2 ^ 53, 0). cbv iota beta. change (new_location 4503599627370496 0) with loc_Exact.
  change (2 ^ 53) with (Zpos 9007199254740992). change (xorb false false) with false.
  apply (raux_exact 53 1024) with (j := 1); [lia| |reflexivity|lia].
  apply bounded_spec. change (Zpos (digits2_pos 4503599627370496)) with 53. unfold fexp, emin. lia.
Qed.
Lemma isD_eq_pow2 v a : -400 <= a <= 400 -> isD v 1 a -> v = pow2d a.
Proof. intros Ha Hv. eapply (isV_fun 53 1024 ltac:(lia)); [exact Hv|apply pow2d_val; lia]. Qed.
Lemma SFeqb_val f g x y k : isD f x k -> isD g y k -> SFeqb f g = true -> x = y.
Proof. intros Hf Hg H. unfold SFeqb in H. rewrite (SFcompare_val 53 1024 ltac:(lia) _ _ _ _ _ Hf Hg) in H. destruct (Z.compare_spec x y); congruence. Qed.

Lemma affine_steps i o x a b t P Q X : -400 <= a <= 400 -> -400 <= b <= 400 -> 0 <= t <= 60 ->
  isD (slope i) 1 a -> isD (slope o) 1 b -> isD (intercept i) P (a - t) -> isD (intercept o) Q (b - t) -> isD x X (a - t) ->
  Z.abs P < 2 ^ 50 -> Z.abs Q < 2 ^ 50 -> Z.abs X < 2 ^ 50 -> isD (affine i o x) (Q + (X - P)) (b - t).
Proof.
  intros Ha Hb Ht Si So Ii Io Hx BP BQ BX. change (2 ^ 50) with 1125899906842624 in *.
  assert (N : forall z, Z.abs z < 9007199254740992 -> isD (binary_normalize 53 1024 z (b - t) false) z (b - t)) by (intros z Hz; apply isV_small; unfold emin; lia).
  unfold affine. rewrite (isD_eq_pow2 _ _ Ha Si), (isD_eq_pow2 _ _ Hb So), ddiv_pow2 by lia. cbv zeta.
  assert (Mul : forall v z, isD v z (a - t) -> Z.abs z < 9007199254740992 -> dmul (pow2d (b - a)) v = binary_normalize 53 1024 z (b - t) false).
  { intros v z Hv Hz. unfold dmul. rewrite SFmul_comm. apply (SFmul_val 53 1024 ltac:(lia) ltac:(lia) v (pow2d (b - a)) _ z 1 (a - t) (b - a)); [exact Hv|apply pow2d_val; lia|lia|].
    rewrite Z.mul_1_r. replace (a - t + (b - a)) with (b - t) by lia. apply N. exact Hz. }
  rewrite (Mul _ _ Ii) by lia. rewrite (Mul _ _ Hx) by lia.
  unfold dsub. rewrite (SFsub_val 53 1024 ltac:(lia) _ _ _ Q P (b - t) Io (N P ltac:(lia)) (N (Q - P) ltac:(lia))).
  unfold dadd. rewrite (SFadd_val 53 1024 ltac:(lia) _ _ _ X (Q - P) (b - t) (N X ltac:(lia)) (N (Q - P) ltac:(lia)) (N (X + (Q - P)) ltac:(lia))).
  replace (Q + (X - P)) with (X + (Q - P)) by lia. apply N. lia.
Qed.

Theorem C59_mapping_value :
  forall wrapv host isReading fin fout ms s c a b t P Q X,
    sampleFormat fin = TWOSCOMP \/ sampleFormat fin = DOUBLE -> sampleFormat fout = DOUBLE -> getFormatCode fin = Some c -> channelCount fin = channelCount fout ->
    unclipped (pcm fin) c -> unclipped (pcm fout) kDouble ->
    arrange wrapv host isReading fin fout None = Ok (Some ms) ->
    hasCode c s = true ->
    -400 <= a <= 400 -> -400 <= b <= 400 -> 0 <= t <= 60 ->
    isD (slope (pcm fin)) 1 a -> isD (slope (pcm fout)) 1 b -> isD (intercept (pcm fin)) P (a - t) -> isD (intercept (pcm fout)) Q (b - t) ->
    isD (numberOf s) X (a - t) -> Z.abs P < 2 ^ 50 -> Z.abs Q < 2 ^ 50 -> Z.abs X < 2 ^ 50 ->
    exists y, runChain ms [s] = Ok [SD y] /\ isD y (Q + (X - P)) (b - t).
Proof.
  intros wrapv host rd fin fout ms s c a b t P Q X Hfi Hfo Hc Hch Ui Uo HA Hs Ha Hb Ht Si So Ii Io Hx BP BQ BX.
  assert (Ks : exists y, (match c with kDouble => SD y = s | kI c' => exists z, s = SI c' z /\ y = dOfZ z | kFloat => False end) /\ isD y X (a - t)).
  { destruct c as [c'| |]; cbn [hasCode] in Hs.
    - destruct s as [c'' z| | |]; try discriminate. exists (dOfZ z). split; [|exact Hx]. exists z. split; [|reflexivity]. f_equal. destruct c', c''; try reflexivity; vm_compute in Hs; discriminate.
    - exfalso. unfold getFormatCode in Hc. destruct Hfi as [E|E]; rewrite E in Hc; [|discriminate]. destruct (bytesPerSample false fin) as [|[[|[]|]|[[]|[]|]|]|]; discriminate.
    - destruct s; try discriminate. eexists. split; [reflexivity|exact Hx]. }
  destruct Ks as (y0 & Ks & Hy0).
  assert (Gi : isUnsigned fin = false) by (unfold isUnsigned; destruct Hfi as [-> | ->]; reflexivity).
  assert (Go : isUnsigned fout = false) by (unfold isUnsigned; rewrite Hfo; reflexivity).
  unfold arrange in HA. rewrite Hc in HA. assert (Gc : getFormatCode fout = Some kDouble) by (unfold getFormatCode; rewrite Hfo; reflexivity). rewrite Gc in HA. clear Gc.
  rewrite Gi, Go, Hch, Z.eqb_refl in HA. cbn [negb when] in HA. assert (If : isIntegerF fout = false) by (unfold isIntegerF; rewrite Hfo; reflexivity). rewrite If in HA. cbn [andb when] in HA.
  apply rbind_Ok in HA. destruct HA as (core & Hcore & HA).
  set (m1 := when _ [MSwap]) in HA. set (m2 := when _ [MExpand3 _]) in HA. set (m13 := when _ [MSwap]) in HA at 1.
  assert (Ems : ms = m1 ++ m2 ++ core ++ [] ++ m13) by congruence. clear HA.
  assert (Q1 : chain1 m1 s = Ok s) by (unfold m1, when; match goal with |- context [if ?b then _ else _] => destruct b end; [destruct s; reflexivity|reflexivity]).
  assert (Q2 : chain1 m2 s = Ok s) by (unfold m2, when; match goal with |- context [if ?b then _ else _] => destruct b end; [destruct s; reflexivity|reflexivity]).
  assert (Q13 : forall y, chain1 m13 (SD y) = Ok (SD y)) by (intros y; unfold m13, when; match goal with |- context [if ?b then _ else _] => destruct b end; reflexivity).
  assert (NM : forallb notMatrix m1 = true /\ forallb notMatrix m2 = true /\ forallb notMatrix m13 = true).
  { unfold m1, m2, m13, when. repeat split; match goal with |- context [if ?b then _ else _] => destruct b end; reflexivity. }
  clearbody m1 m2 m13.
  assert (K : exists y, chain1 core s = Ok (SD y) /\ isD y (Q + (X - P)) (b - t) /\ forallb notMatrix core = true).
  { unfold arrangeCore in Hcore. cbn [rbind] in Hcore.
    assert (C4 : when (SFltb (minClip (pcm fin)) (maxClip (pcm fin)) && negb (trivialClip (pcm fin) c)) [MClip c (pcm fin)] = []).
    { destruct Ui as [-> | ->]; [reflexivity|]. rewrite andb_false_r. reflexivity. }
    assert (C10 : SFltb (minClip (pcm fout)) (maxClip (pcm fout)) = false) by (destruct Uo as [U|U]; [exact U|discriminate U]).
    pose proof (affine_steps (pcm fin) (pcm fout) y0 a b t P Q X Ha Hb Ht Si So Ii Io Hy0 BP BQ BX) as AF.
    set (tr := (negb (SFeqb (slope (pcm fin)) (slope (pcm fout))) || negb (SFeqb (intercept (pcm fin)) (intercept (pcm fout)))) && negb (trivialMapping (pcm fin) c && trivialMapping (pcm fout) kDouble)) in *.
    assert (Same : tr = false -> isD y0 (Q + (X - P)) (b - t)).
    { unfold tr. cbn [trivialMapping]. rewrite andb_false_r. cbn [negb]. rewrite andb_true_r. intros E. apply orb_false_iff in E. destruct E as [E1 E2]. apply negb_false_iff in E1, E2.
      assert (a = b).
      { assert (Si' : isD (slope (pcm fin)) (2 ^ (a - Z.min a b)) (Z.min a b)). { replace (Z.min a b) with (a - (a - Z.min a b)) at 2 by lia. rewrite <- (Z.mul_1_l (2 ^ _)). apply isV_down; [lia|exact Si]. }
        assert (So' : isD (slope (pcm fout)) (2 ^ (b - Z.min a b)) (Z.min a b)). { replace (Z.min a b) with (b - (b - Z.min a b)) at 2 by lia. rewrite <- (Z.mul_1_l (2 ^ _)). apply isV_down; [lia|exact So]. }
        pose proof (SFeqb_val _ _ _ _ _ Si' So' E1) as EE. apply Z.pow_inj_r in EE; lia. }
      subst b. pose proof (SFeqb_val _ _ _ _ _ Ii Io E2). subst Q. replace (P + (X - P)) with X by lia. exact Hy0. }
    clearbody tr. destruct c as [c'| |]; [|contradiction|].
    - destruct Ks as (z & -> & ->). rewrite C4, C10 in Hcore. destruct tr.
      + change (code_eqb kDouble kDouble) with true in Hcore. rewrite orb_true_r in Hcore. cbn [orb app when andb negb code_eqb] in Hcore. cbn [rbind] in Hcore. cbn [app when andb] in Hcore.
        assert (core = [MIntToFloat c' true; MTransform true (pcm fin) (pcm fout)]) by congruence. subst core. exists (affine (pcm fin) (pcm fout) (dOfZ z)).
        split; [|split; [exact AF|reflexivity]]. cbn [chain1 run1]. rewrite Z.eqb_refl. reflexivity.
      + cbn [app when andb negb code_eqb] in Hcore. cbn [rbind] in Hcore. cbn [app when andb] in Hcore.
        assert (core = [MIntToFloat c' true]) by congruence. subst core. exists (dOfZ z). split; [|split; [apply Same; reflexivity|reflexivity]]. cbn [chain1 run1]. rewrite Z.eqb_refl. reflexivity.
    - subst s. rewrite C4, C10 in Hcore. destruct tr.
      + cbn [app when andb negb code_eqb] in Hcore. cbn [rbind] in Hcore. cbn [app when andb] in Hcore.
        assert (core = [MTransform true (pcm fin) (pcm fout)]) by congruence. subst core. exists (affine (pcm fin) (pcm fout) y0). split; [reflexivity|split; [exact AF|reflexivity]].
      + cbn [app when andb negb code_eqb] in Hcore. cbn [rbind] in Hcore. cbn [app when andb] in Hcore.
        assert (core = []) by congruence. subst core. exists y0. split; [reflexivity|split; [apply Same; reflexivity|reflexivity]]. }
  destruct K as (y & Hy1 & Hy2 & Hy3). exists y. split; [|exact Hy2]. subst ms.
  destruct NM as (N1 & N2 & N3).
  assert (CH : chain1 (m1 ++ m2 ++ core ++ [] ++ m13) s = Ok (SD y)).
  { rewrite chain1_app, Q1. cbn [rbind]. rewrite chain1_app, Q2. cbn [rbind]. rewrite chain1_app, Hy1. cbn [rbind app]. apply Q13. }
  assert (NMs : forallb notMatrix (m1 ++ m2 ++ core ++ [] ++ m13) = true) by (rewrite !forallb_app, N1, N2, N3, Hy3; reflexivity).
  rewrite (runChain_map _ NMs (fun _ => SD y)); [reflexivity|]. intros s' [<-|[]]. exact CH.
Qed.
Print Assumptions C59_mapping_value.

(** 16-bit samples whose zero is 100 and whose full scale is 32768 above it, read as doubles between 0 and 1 around a zero of 1/2:
    the sample 16484 is halfway up to full scale, so it becomes 1/2 + 1/2. *)
Example C59_mapping_value_satisfiable :
  let fin := {| sampleFormat := TWOSCOMP; sampleWidth := 16; channelCount := 1; byteOrder := BigEndian; compressed := false;
                pcm := {| slope := dOfZ 32768; intercept := dOfZ 100; minClip := dOfZ 0; maxClip := dOfZ 0 |} |} in
  let fout := {| sampleFormat := DOUBLE; sampleWidth := 64; channelCount := 1; byteOrder := LittleEndian; compressed := false;
                 pcm := {| slope := dOfZ 1; intercept := pow2d (-1); minClip := dOfZ 0; maxClip := dOfZ 0 |} |} in
  exists ms, arrange false LittleEndian true fin fout None = Ok (Some ms) /\ unclipped (pcm fin) (kI kInt16) /\ unclipped (pcm fout) kDouble /\
    isD (slope (pcm fin)) 1 15 /\ isD (intercept (pcm fin)) 100 0 /\ isD (slope (pcm fout)) 1 0 /\ isD (intercept (pcm fout)) 16384 (-15) /\
    isD (numberOf (SI kInt16 16484)) 16484 0 /\ runChain ms [SI kInt16 16484] = Ok [SD (dOfZ 1)].
Proof.
  cbv zeta. eexists. split; [vm_compute; reflexivity|]. split; [left; reflexivity|]. split; [left; reflexivity|].
  split; [apply (pow2d_val 15); lia|]. split; [apply isD_ofZ; reflexivity|]. split; [apply (pow2d_val 0); lia|].
  split; [apply (isV_down 53 1024 (pow2d (-1)) 1 (-1) 14); [lia|apply pow2d_val; lia]|]. split; [apply isD_ofZ; reflexivity|]. vm_compute. reflexivity.
Qed.

(** ** C52 *)
Definition intMapping (u : bool) (c : intcode) : pcmInfo := if u then unsignedMapping c else signedMapping c.

Lemma core_i2f u c dbl : (u = true -> c <> kInt32) ->
  arrangeCore false u false (kI c) (if dbl : bool then kDouble else kFloat) (intMapping u c) floatMapping [] =
  Ok (when u [MSign c false] ++ (if dbl then [MIntToFloat c true; MTransform true (signedMapping c) floatMapping]
      else match c with
           | kInt32 => [MIntToFloat c true; MTransform true (signedMapping c) floatMapping; MFloatToFloat false]
           | _ => [MIntToFloat c false; MTransform false (signedMapping c) floatMapping] end)).
Proof. intros H. destruct u, c, dbl; try (exfalso; apply H; reflexivity); vm_compute; reflexivity. Qed.
Lemma core_f2i u c dbl : (u = true -> c <> kInt32) ->
  arrangeCore false false u (if dbl : bool then kDouble else kFloat) (kI c) floatMapping (intMapping u c) [] =
  Ok (MFloatToInt dbl c floatMapping (signedMapping c) :: when u [MSign c true]).
Proof. intros H. destruct u, c, dbl; try (exfalso; apply H; reflexivity); vm_compute; reflexivity. Qed.

(** The integer formats a caller can ask for, with their code. *)
Lemma set_int f sf w g : setSampleFormat f sf w = Some g -> (sf = TWOSCOMP \/ sf = UNSIGNED) ->
  exists c, getFormatCode g = Some (kI c) /\ pcm g = intMapping (isUnsigned g) c /\ isUnsigned g = (match sf with UNSIGNED => true | _ => false end) /\ (w <= 24 -> c <> kInt32) /\ channelCount g = channelCount f.
Proof.
  intros H Hs. unfold setSampleFormat in H.
  destruct Hs as [-> | ->]; (destruct ((w <? 1) || (32 <? w)) eqn:W; [discriminate|]);
  assert (Hw : Z.quot (w + 7) 8 = 1 \/ Z.quot (w + 7) 8 = 2 \/ Z.quot (w + 7) 8 = 3 \/ Z.quot (w + 7) 8 = 4 /\ 24 < w) by (rewrite Z.quot_div_nonneg by lia; lia);
  destruct Hw as [E|[E|[E|[E L]]]]; rewrite E in H; injection H as <-; unfold getFormatCode, bytesPerSample; cbn [sampleFormat sampleWidth compressed]; rewrite E; rewrite !andb_false_r;
  eexists; (split; [reflexivity|]); repeat split; try discriminate; lia.
Qed.
Lemma set_float f (dbl : bool) w g : setSampleFormat f (if dbl then DOUBLE else FLOAT) w = Some g ->
  getFormatCode g = Some (if dbl then kDouble else kFloat) /\ pcm g = floatMapping /\ isUnsigned g = false /\ channelCount g = channelCount f.
Proof. intros H. destruct dbl; injection H as <-; repeat split. Qed.

Lemma arrange_chain host rd fin fout matrix infc outfc core : getFormatCode fin = Some infc -> getFormatCode fout = Some outfc -> channelCount fin = channelCount fout ->
  arrangeCore false (isUnsigned fin) (isUnsigned fout) infc outfc (pcm fin) (pcm fout) [] = Ok core -> forallb notMatrix core = true ->
  exists ms, arrange false host rd fin fout matrix = Ok (Some ms) /\ forall g fr, (forall s, In s fr -> chain1 core s = Ok (g s)) -> runChain ms fr = Ok (map g fr).
Proof.
  intros H1 H2 HC HA HN. unfold arrange. rewrite H1, H2. replace (channelCount fin =? channelCount fout) with true by lia. cbv zeta. cbn [negb when]. rewrite HA. cbn [rbind].
  eexists. split; [reflexivity|]. intros g fr H. apply runChain_map; [apply notMatrix_bytes, HN|]. intros s Hs. rewrite chain_bytes. auto.
Qed.

(** The value of an integer sample relative to zero, and whether it is one of the type's. *)
Definition sampleOf (u : bool) (c : intcode) (z : Z) : smp := if u then SU c (z + 2 ^ (bits c - 1)) else SI c z.

(** [z]: the frame's samples relative to the zero of the format.  Converting a frame of integers of up to 24 bits
    (32, if signed) to double, or of up to 24 bits to float, gives z / 2^(bits - 1) exactly, and converting
    back gives the same frame; in reading and writing, whatever the byte orders, packing or compression. *)
Theorem C52_int_float_roundtrip :
  forall host rd1 rd2 f0 f1 sf w (dbl : bool) fi ff matrix1 matrix2,
    setSampleFormat f0 sf w = Some fi -> (sf = TWOSCOMP \/ sf = UNSIGNED) ->
    setSampleFormat f1 (if dbl then DOUBLE else FLOAT) 0 = Some ff ->
    channelCount f0 = channelCount f1 ->
    (w <= 24 \/ sf = TWOSCOMP /\ dbl = true) ->
    exists c ms1 ms2, getFormatCode fi = Some (kI c) /\
      arrange false host rd1 fi ff matrix1 = Ok (Some ms1) /\ arrange false host rd2 ff fi matrix2 = Ok (Some ms2) /\
      forall zs, Forall (inSigned c) zs ->
      let frame := map (sampleOf (match sf with UNSIGNED => true | _ => false end) c) zs in
      exists frame', runChain ms1 frame = Ok frame' /\ Forall2 (isFrac c) zs frame' /\ runChain ms2 frame' = Ok frame.
Proof.
  intros host rd1 rd2 f0 f1 sf w dbl fi ff mt1 mt2 H0 Hs H1 HC HW.
  destruct (set_int _ _ _ _ H0 Hs) as (c & G0 & P0 & U0 & L0 & C0). destruct (set_float _ _ _ _ H1) as (G1 & P1 & U1 & C1).
  set (u := match sf with UNSIGNED => true | _ => false end) in *.
  assert (HU : u = true -> c <> kInt32). { intros Hu. destruct HW as [HW|[-> _]]; [auto|discriminate Hu]. }
  assert (HF : dbl = false -> c <> kInt32). { intros Hd. destruct HW as [HW|[_ ->]]; [auto|discriminate Hd]. }
  pose proof (core_i2f u c dbl HU) as CI. pose proof (core_f2i u c dbl HU) as CO.
  rewrite U0 in P0.
  match type of CI with _ = ?r => assert (CI' : arrangeCore false (isUnsigned fi) (isUnsigned ff) (kI c) (if dbl then kDouble else kFloat) (pcm fi) (pcm ff) [] = r) by (rewrite U0, U1, P0, P1; exact CI) end.
  match type of CO with _ = ?r => assert (CO' : arrangeCore false (isUnsigned ff) (isUnsigned fi) (if dbl then kDouble else kFloat) (kI c) (pcm ff) (pcm fi) [] = r) by (rewrite U0, U1, P0, P1; exact CO) end.
  edestruct (arrange_chain host rd1 fi ff mt1 _ _ _ G0 G1 ltac:(congruence) CI') as (ms1 & A1 & R1). { destruct u, c, dbl; reflexivity. }
  edestruct (arrange_chain host rd2 ff fi mt2 _ _ _ G1 G0 ltac:(congruence) CO') as (ms2 & A2 & R2). { destruct u; reflexivity. }
  exists c, ms1, ms2. split; [exact G0|]. split; [exact A1|]. split; [exact A2|]. intros zs Hz.
  set (y := fun z => if dbl then SD (affine (signedMapping c) floatMapping (dOfZ z)) else SF (toFloat (affine (signedMapping c) floatMapping (toDouble (fOfZ z))))).
  set (val := fun s => match s with SI _ z => z | SU _ z => z - 2 ^ (bits c - 1) | _ => 0 end).
  assert (VS : forall z, val (sampleOf u c z) = z) by (intros z; unfold val, sampleOf; destruct u; lia).
  assert (FR : forall z, inSigned c z -> isFrac c z (y z)).
  { intros z Iz. unfold y. destruct dbl; cbn [isFrac]; [apply int_to_double, Iz|apply int_to_float; auto]. }
  assert (E1 : runChain ms1 (map (sampleOf u c) zs) = Ok (map (fun s => y (val s)) (map (sampleOf u c) zs))).
  { apply R1. intros s Hin. apply in_map_iff in Hin as (z & <- & Hin). rewrite Forall_forall in Hz. specialize (Hz z Hin). rewrite VS.
    rewrite chain1_app.
    assert (ES : chain1 (when u [MSign c false]) (sampleOf u c z) = Ok (SI c z)).
    { unfold sampleOf. destruct u; cbn [when chain1 run1 rbind]; [|reflexivity]. rewrite codenum_refl. cbn [rbind]. rewrite utos; [|unfold inSigned, inUnsigned in *; destruct c; cbn [bits] in *; lia]. do 2 f_equal. lia. }
    rewrite ES. cbn [rbind]. unfold y. destruct dbl; cbn [chain1 run1]; rewrite ?codenum_refl; cbn [rbind]; [reflexivity|].
    destruct c; try (specialize (HF eq_refl); congruence); reflexivity. }
  exists (map y zs). split; [|split].
  - rewrite E1. rewrite map_map. f_equal. apply map_ext. intros z. now rewrite VS.
  - clear - Hz FR. induction zs as [|z zs IH]; cbn; constructor; apply Forall_cons_iff in Hz as [Hz1 Hz2]; auto.
  - set (back := fun s => match s with SD f => match floatToIntClip (cbits c) floatMapping (signedMapping c) f with Ok z => sampleOf u c z | _ => s end
                                     | SF f => match floatToIntClip (cbits c) floatMapping (signedMapping c) (toDouble f) with Ok z => sampleOf u c z | _ => s end | _ => s end).
    assert (BK : forall z, inSigned c z -> back (y z) = sampleOf u c z).
    { intros z Iz. pose proof (FR z Iz) as F. unfold y, back in *. destruct dbl; cbn [isFrac] in F; [rewrite (frac_to_int c z _ Iz F)|rewrite (frac_to_int c z _ Iz (toDouble_val _ _ _ F))]; reflexivity. }
    rewrite (R2 back).
    + rewrite map_map. f_equal. apply map_ext_in. intros z Hin. apply BK. rewrite Forall_forall in Hz. auto.
    + intros s Hin. apply in_map_iff in Hin as (z & <- & Hin). rewrite Forall_forall in Hz. specialize (Hz z Hin). rewrite BK by exact Hz. pose proof (FR z Hz) as F.
      assert (E : run1 (MFloatToInt dbl c floatMapping (signedMapping c)) (y z) = Ok (SI c z)).
      { unfold y in *. destruct dbl; cbn [isFrac run1] in *; [rewrite (frac_to_int c z _ Hz F)|rewrite (frac_to_int c z _ Hz (toDouble_val _ _ _ F))]; reflexivity. }
      cbn [chain1]. rewrite E. cbn [rbind]. unfold sampleOf. destruct u; cbn [when chain1 run1]; [|reflexivity]. rewrite codenum_refl, stou by auto. reflexivity.
Qed.
Print Assumptions C52_int_float_roundtrip.

(** A float or double that is not a NaN becomes the integer below it in magnitude, confined to the range: at or
    above full scale the largest sample, at or below the negative full scale the smallest. *)
Theorem C52_float_to_int_clips :
  forall host rd f0 f1 w (dbl : bool) fi ff matrix,
    setSampleFormat f0 TWOSCOMP w = Some fi -> setSampleFormat f1 (if dbl then DOUBLE else FLOAT) 0 = Some ff -> channelCount f0 = channelCount f1 ->
    exists c ms, getFormatCode fi = Some (kI c) /\ arrange false host rd ff fi matrix = Ok (Some ms) /\
      forall xs, Forall (fun x => x <> S754_nan /\ (if dbl then validD x else validF x) = true) xs ->
        runChain ms (map (if dbl then SD else SF) xs) = Ok (map (fun x => SI c (toIntSpec c (if dbl then x else toDouble x))) xs).
Proof.
  intros host rd f0 f1 w dbl fi ff mt H0 H1 HC.
  destruct (set_int _ _ _ _ H0 (or_introl eq_refl)) as (c & G0 & P0 & U0 & L0 & C0). destruct (set_float _ _ _ _ H1) as (G1 & P1 & U1 & C1).
  pose proof (core_f2i false c dbl ltac:(discriminate)) as CO. 
  assert (PE : pcm fi = intMapping false c) by (rewrite P0, U0; reflexivity).
  match type of CO with _ = ?r => assert (CO' : arrangeCore false (isUnsigned ff) (isUnsigned fi) (if dbl then kDouble else kFloat) (kI c) (pcm ff) (pcm fi) [] = r) by (rewrite U0, U1, PE, P1; exact CO) end.
  edestruct (arrange_chain host rd ff fi mt _ _ _ G1 G0 ltac:(congruence) CO') as (ms & A & R). { reflexivity. }
  exists c, ms. split; [exact G0|]. split; [exact A|]. intros xs Hx.
  rewrite (R (fun s => match s with SD x => SI c (toIntSpec c x) | SF x => SI c (toIntSpec c (toDouble x)) | _ => s end)).
  - f_equal. rewrite map_map. apply map_ext. intros x. destruct dbl; reflexivity.
  - intros s Hin. apply in_map_iff in Hin as (x & <- & Hin). rewrite Forall_forall in Hx. destruct (Hx x Hin) as [Hn Hv].
    destruct dbl; cbn [chain1 run1 when].
    + rewrite floatToInt_spec by auto. reflexivity.
    + rewrite floatToInt_spec; [reflexivity| |].
      * destruct x as [s|s| |s m e]; try reflexivity. apply (toDouble_val (S754_finite s m e) (cond_Zopp s (Zpos m)) e). apply isV_finite. exact Hv.
      * destruct x as [s|s| |s m e]; try discriminate; try congruence. pose proof (toDouble_val (S754_finite s m e) _ e (isV_finite 24 128 s m e Hv)) as (_ & F & _). intros E. rewrite E in F. exact F.
Qed.
Print Assumptions C52_float_to_int_clips.

Lemma big_scaled m e j : 0 <= j -> let K := Z.max 0 (- e) in 2 ^ K <= Zpos m * 2 ^ (e + K) ->
  2 ^ j <= (if 0 <=? e + j then Zpos m * 2 ^ (e + j) else Zpos m / 2 ^ (- (e + j))).
Proof.
  intros Hj K HB. assert (Pj : 0 < 2 ^ j) by (apply Z.pow_pos_nonneg; lia). destruct (Z.leb_spec 0 (e + j)) as [H|H].
  - destruct (Z.le_gt_cases 0 e) as [H0|H0].
    + assert (E : 2 ^ (e + j) = 2 ^ e * 2 ^ j) by (apply Z.pow_add_r; lia). rewrite E. assert (Pe : 0 < 2 ^ e) by (apply Z.pow_pos_nonneg; lia).
      clear - Pj Pe. set (x := 2 ^ e) in *. set (y := 2 ^ j) in *. clearbody x y. rewrite Z.mul_assoc. rewrite <- (Z.mul_1_l y) at 1. apply Z.mul_le_mono_nonneg_r; [lia|]. assert (0 < Zpos m * x) by (apply Z.mul_pos_pos; lia). lia.
    + assert (E0 : e + K = 0) by lia. rewrite E0 in HB. change (2 ^ 0) with 1 in HB. rewrite Z.mul_1_r in HB.
      assert (E : 2 ^ j = 2 ^ K * 2 ^ (e + j)) by (rewrite <- Z.pow_add_r by lia; f_equal; lia). rewrite E. apply Z.mul_le_mono_nonneg_r; [|exact HB]. apply Z.pow_nonneg; lia.
  - assert (E0 : e + K = 0) by lia. rewrite E0 in HB. change (2 ^ 0) with 1 in HB. rewrite Z.mul_1_r in HB.
    apply Z.div_le_lower_bound; [apply Z.pow_pos_nonneg; lia|]. rewrite <- Z.pow_add_r by lia. replace (- (e + j) + j) with K by lia. exact HB.
Qed.

Theorem C52_clip_limits :
  forall c x, validD x = true -> x <> S754_nan ->
    inSigned c (toIntSpec c x) /\
    (SFleb (dOfZ 1) x = true -> toIntSpec c x = 2 ^ (bits c - 1) - 1) /\ (SFleb x (dOfZ (-1)) = true -> toIntSpec c x = - 2 ^ (bits c - 1)).
Proof.
  intros c x Hv Hn. assert (Hb : 8 <= bits c <= 32) by (destruct c; cbn; lia). unfold inSigned, toIntSpec.
  assert (P : 0 < 2 ^ (bits c - 1)) by (apply Z.pow_pos_nonneg; lia).
  destruct x as [s|s| |s m e]; [| |congruence|].
  - split; [cbn [scaleTrunc]; lia|]. split; intros H; destruct s; discriminate H.
  - destruct s; (split; [lia|]); split; intros H; try reflexivity; discriminate H.
  - split; [lia|]. set (j := bits c - 1) in *.
    assert (Hs : forall a, a = cond_Zopp s (Zpos m) -> isD (S754_finite s m e) a e) by (intros a ->; apply isV_finite; exact Hv).
    pose proof (Hs _ eq_refl) as I. set (K := Z.max 0 (- e)).
    assert (Tx : isD (S754_finite s m e) (cond_Zopp s (Zpos m) * 2 ^ (e + K)) (- K)). { replace (- K) with (e - (e + K)) by lia. apply isV_down; [lia|exact I]. }
    assert (T1 : forall z, Z.abs z = 1 -> isD (dOfZ z) (z * 2 ^ K) (- K)) by (intros z Hz; apply (isV_down _ _ _ z 0 K); [lia|apply isD_ofZ; rewrite Hz; reflexivity]).
    assert (PK : 0 < 2 ^ K) by (apply Z.pow_pos_nonneg; lia). assert (PE : 0 < 2 ^ (e + K)) by (apply Z.pow_pos_nonneg; lia).
    pose proof (big_scaled m e j ltac:(lia)) as BIG. cbv zeta in BIG. fold K in BIG.
    cbn [scaleTrunc]. set (Y := if 0 <=? e + j then _ else _) in *. split; intros H; unfold SFleb in H.
    + rewrite (SFcompare_val 53 1024 ltac:(lia) _ _ _ _ _ (T1 1 eq_refl) Tx) in H.
      assert (HB : 1 * 2 ^ K <= cond_Zopp s (Zpos m) * 2 ^ (e + K)) by (destruct (Z.compare_spec (1 * 2 ^ K) (cond_Zopp s (Zpos m) * 2 ^ (e + K))); try discriminate H; lia).
      clear - HB BIG P PK PE. set (q := Zpos m) in *. assert (0 < q) by (unfold q; lia). clearbody q Y. set (x := 2 ^ (e + K)) in *. set (y := 2 ^ K) in *. set (z := 2 ^ j) in *. clearbody x y z. destruct s; cbn [cond_Zopp] in *; [assert (0 < q * x) by (apply Z.mul_pos_pos; lia); lia|]. lia.
    + rewrite (SFcompare_val 53 1024 ltac:(lia) _ _ _ _ _ Tx (T1 (-1) eq_refl)) in H.
      assert (HB : cond_Zopp s (Zpos m) * 2 ^ (e + K) <= -1 * 2 ^ K) by (destruct (Z.compare_spec (cond_Zopp s (Zpos m) * 2 ^ (e + K)) (-1 * 2 ^ K)); try discriminate H; lia).
      clear - HB BIG P PK PE. set (q := Zpos m) in *. assert (0 < q) by (unfold q; lia). clearbody q Y. set (x := 2 ^ (e + K)) in *. set (y := 2 ^ K) in *. set (z := 2 ^ j) in *. clearbody x y z. destruct s; cbn [cond_Zopp] in *; [|assert (0 < q * x) by (apply Z.mul_pos_pos; lia); lia]. lia.
Qed.
Print Assumptions C52_clip_limits.

(** A NaN sample in a floating-point file read as integers: the conversion of a NaN to an integer type is
    undefined (std::min and std::max keep a NaN that is their first argument). *)
Theorem C52_nan_refuted :
  ~ (forall host rd f0 f1 fi ff ms x, setSampleFormat f0 TWOSCOMP 16 = Some fi -> setSampleFormat f1 FLOAT 0 = Some ff ->
       arrange false host rd ff fi None = Ok (Some ms) -> channelCount fi = 1 -> channelCount ff = 1 -> runChain ms [SF x] <> UB).
Proof.
  intros H. set (f := {| sampleFormat := TWOSCOMP; sampleWidth := 16; channelCount := 1; byteOrder := LittleEndian; compressed := false; pcm := signedMapping kInt16 |}).
  set (fi := {| sampleFormat := TWOSCOMP; sampleWidth := 16; channelCount := 1; byteOrder := LittleEndian; compressed := false; pcm := signedMapping kInt16 |}).
  set (ff := {| sampleFormat := FLOAT; sampleWidth := 32; channelCount := 1; byteOrder := LittleEndian; compressed := false; pcm := floatMapping |}).
  apply (H LittleEndian true f f fi ff [MFloatToInt false kInt16 floatMapping (signedMapping kInt16)] S754_nan eq_refl eq_refl); [vm_compute; reflexivity|reflexivity|reflexivity|].
  vm_compute. reflexivity.
Qed.
Print Assumptions C52_nan_refuted.

(** 32-bit samples do not survive the float format. *)
Theorem C52_int32_float_refuted :
  ~ (forall host rd1 rd2 f0 f1 fi ff ms1 ms2 z, setSampleFormat f0 TWOSCOMP 32 = Some fi -> setSampleFormat f1 FLOAT 0 = Some ff ->
       arrange false host rd1 fi ff None = Ok (Some ms1) -> arrange false host rd2 ff fi None = Ok (Some ms2) -> channelCount fi = 1 -> channelCount ff = 1 ->
       inSigned kInt32 z -> rbind (runChain ms1 [SI kInt32 z]) (runChain ms2) = Ok [SI kInt32 z]).
Proof.
  intros H. set (f := {| sampleFormat := TWOSCOMP; sampleWidth := 16; channelCount := 1; byteOrder := LittleEndian; compressed := false; pcm := signedMapping kInt16 |}).
  match type of H with forall host rd1 rd2 f0 f1 fi ff ms1 ms2 z, _ => idtac end.
  set (fi := {| sampleFormat := TWOSCOMP; sampleWidth := 32; channelCount := 1; byteOrder := LittleEndian; compressed := false; pcm := signedMapping kInt32 |}).
  set (ff := {| sampleFormat := FLOAT; sampleWidth := 32; channelCount := 1; byteOrder := LittleEndian; compressed := false; pcm := floatMapping |}).
  pose proof (H LittleEndian true false f f fi ff
    [MIntToFloat kInt32 true; MTransform true (signedMapping kInt32) floatMapping; MFloatToFloat false]
    [MFloatToInt false kInt32 floatMapping (signedMapping kInt32)] 16777217 eq_refl eq_refl) as G.
  specialize (G ltac:(vm_compute; reflexivity) ltac:(vm_compute; reflexivity) eq_refl eq_refl ltac:(unfold inSigned; cbn; lia)).
  vm_compute in G. discriminate G.
Qed.
Print Assumptions C52_int32_float_refuted.

Example C52_nonvacuous :
  let f := {| sampleFormat := TWOSCOMP; sampleWidth := 16; channelCount := 2; byteOrder := BigEndian; compressed := false; pcm := signedMapping kInt16 |} in
  exists fi ff ms, setSampleFormat f UNSIGNED 24 = Some fi /\ setSampleFormat f FLOAT 0 = Some ff /\ arrange false LittleEndian true fi ff None = Ok (Some ms) /\
    runChain ms [SU kInt24 8388608; SU kInt24 4194304] = Ok [SF (S754_zero false); SF (S754_finite true 8388608 (-24))].
Proof.
  cbv zeta. eexists _, _, _. split; [reflexivity|]. split; [reflexivity|]. split; [vm_compute; reflexivity|]. vm_compute. reflexivity.
Qed.
