(** * Proofs about the converter chain: types *)
From Verif Require Import Prelude PreludeFacts ByteOrder Convert Float Arrange.

(** The type of a sample: what the caller's buffer or the file holds. *)
Inductive ty := TI (c : intcode) | TU (c : intcode) | TF | TD.
Definition tyOf (s : smp) : ty := match s with SI c _ => TI c | SU c _ => TU c | SF _ => TF | SD _ => TD end.
Definition codeTy (c : code) : ty := match c with kI c => TI c | kFloat => TF | kDouble => TD end.
Definition fmtTy (f : format) : option ty :=
  match getFormatCode f with
  | Some (kI c) => Some (if isUnsigned f then TU c else TI c)
  | Some kFloat => Some TF
  | Some kDouble => Some TD
  | None => None
  end.

Lemma codenum_eqb a b : (codenum a =? codenum b) = true <-> a = b.
Proof. destruct a, b; cbn; split; intros; congruence. Qed.
Lemma codenum_refl a : (codenum a =? codenum a) = true.
Proof. apply codenum_eqb; reflexivity. Qed.

(** What a module turns a type into. *)
Definition stepTy (m : module) (t : ty) : option ty :=
  match m, t with
  | MSwap, _ | MExpand3 _, _ | MCompress3 _, _ => Some t
  | MSign c true, TI c' => if codenum c =? codenum c' then Some (TU c) else None
  | MSign c false, TU c' => if codenum c =? codenum c' then Some (TI c) else None
  | MClip (kI c) _, TI c' => if codenum c =? codenum c' then Some (TI c) else None
  | MClip kFloat _, TF => Some TF
  | MClip kDouble _, TD => Some TD
  | MIntToFloat c dbl, TI c' => if codenum c =? codenum c' then Some (if dbl then TD else TF) else None
  | MTransform true _ _, TD => Some TD
  | MTransform false _ _, TF => Some TF
  | MIntToInt i o, TI c => if codenum i =? codenum c then Some (TI o) else None
  | MFloatToInt true o _ _, TD => Some (TI o)
  | MFloatToInt false o _ _, TF => Some (TI o)
  | MFloatToFloat true, TF => Some TD
  | MFloatToFloat false, TD => Some TF
  | MMatrix (kI c) _, TI c' => if codenum c =? codenum c' then Some (TI c) else None
  | MMatrix kFloat _, TF => Some TF
  | MMatrix kDouble _, TD => Some TD
  | _, _ => None
  end.
Fixpoint stepsTy (ms : list module) (t : ty) : option ty :=
  match ms with [] => Some t | m :: ms' => match stepTy m t with Some t' => stepsTy ms' t' | None => None end end.

Lemma stepsTy_app l1 l2 t : stepsTy (l1 ++ l2) t = match stepsTy l1 t with Some t' => stepsTy l2 t' | None => None end.
Proof. revert t. induction l1 as [|m l1 IH]; intros t; cbn; [reflexivity|]. destruct (stepTy m t); auto. Qed.
Lemma stepsTy_when b m t : stepTy m t = Some t -> stepsTy (when b [m]) t = Some t.
Proof. intros H. destruct b; cbn; [rewrite H|]; reflexivity. Qed.

(** Number of samples of a frame *)
Definition stepCh (m : module) (n : Z) : Z := match m with MMatrix _ rows => zlen rows | _ => n end.
Fixpoint stepsCh (ms : list module) (n : Z) : Z := match ms with [] => n | m :: ms' => stepsCh ms' (stepCh m n) end.
Lemma stepsCh_app l1 l2 n : stepsCh (l1 ++ l2) n = stepsCh l2 (stepsCh l1 n).
Proof. revert n. induction l1; intros; cbn; auto. Qed.
Lemma stepsCh_when b m n : stepCh m n = n -> stepsCh (when b [m]) n = n.
Proof. destruct b; cbn; auto. Qed.

(** [good Q r]: neither a type mismatch nor a nontermination; a result satisfies [Q]. *)
Definition good {A} (Q : A -> Prop) (r : res A) : Prop := match r with Ok a => Q a | UB => True | _ => False end.
Lemma good_bind {A B} (P : A -> Prop) (Q : B -> Prop) r f : good P r -> (forall a, P a -> good Q (f a)) -> good Q (rbind r f).
Proof. destruct r; cbn; auto. Qed.

Lemma good_toInt n f : good (fun _ => True) (toInt n f).
Proof. unfold toInt. destruct (truncZ f); [destruct (inS n z)|]; cbn; auto. Qed.
Lemma good_stou c z : good (fun _ => True) (signedToUnsigned c z).
Proof. unfold signedToUnsigned, ck32. destruct (inS 32 _); cbn; auto. Qed.
Lemma good_convertInt i o z : good (fun _ => True) (convertInt i o z).
Proof. unfold convertInt, ck32. destruct (codenum i >? codenum o); [cbn; auto|]. destruct (inS 32 _); cbn; auto. Qed.

Lemma run1_ty m s t' : stepTy m (tyOf s) = Some t' -> (forall c r, m <> MMatrix c r) -> good (fun s' => tyOf s' = t') (run1 m s).
Proof.
  intros H Hm. destruct m as [| | |c fs|c p|c dbl|dbl i o|i o|dbl o i p|td|c r]; try (cbn in *; injection H as <-; reflexivity).
  - destruct fs, s; try discriminate H; cbn in *; (destruct (codenum c =? codenum c0) eqn:E; [|discriminate]); injection H as <-.
    + eapply good_bind; [apply good_stou|]. intros a _. reflexivity.
    + reflexivity.
  - destruct c as [c| |], s; try discriminate H; cbn in *.
    + destruct (codenum c =? codenum c0) eqn:E; [|discriminate]. injection H as <-.
      eapply good_bind; [apply good_toInt|]. intros a _. eapply good_bind; [apply good_toInt|]. intros b _. reflexivity.
    + injection H as <-. reflexivity.
    + injection H as <-. reflexivity.
  - destruct s; try discriminate H; cbn in *. destruct (codenum c =? codenum c0) eqn:E; [|discriminate]. injection H as <-. destruct dbl; reflexivity.
  - destruct dbl, s; try discriminate H; cbn in *; injection H as <-; reflexivity.
  - destruct s; try discriminate H; cbn in *. destruct (codenum i =? codenum c) eqn:E; [|discriminate]. injection H as <-.
    eapply good_bind; [apply good_convertInt|]. intros a _. reflexivity.
  - destruct dbl, s; try discriminate H; cbn in *; injection H as <-; (eapply good_bind; [apply good_toInt|]; intros a _; reflexivity).
  - destruct td, s; try discriminate H; cbn in *; injection H as <-; reflexivity.
  - exfalso. eapply Hm. reflexivity.
Qed.

Definition frameTy (t : ty) (n : Z) (fr : list smp) : Prop := zlen fr = n /\ Forall (fun s => tyOf s = t) fr.

Lemma rmapM_good {A B} (f : A -> res B) (P : A -> Prop) (Q : B -> Prop) l : Forall P l -> (forall a, P a -> good Q (f a)) -> good (fun l' => length l' = length l /\ Forall Q l') (rmapM f l).
Proof.
  intros HF Hf. induction l as [|a l IH]; cbn; [split; auto|]. apply Forall_cons_iff in HF as [Ha Hl].
  eapply good_bind; [apply Hf, Ha|]. intros b Hb. eapply good_bind; [apply IH, Hl|]. intros l' [E H']. cbn. split; [lia|constructor; auto].
Qed.

Lemma runModule_ty m t t' n fr : stepTy m t = Some t' -> frameTy t n fr -> good (frameTy t' (stepCh m n)) (runModule m fr).
Proof.
  intros H [Hn HF]. destruct (match m with MMatrix _ _ => true | _ => false end) eqn:IM.
  - destruct m as [| | | | | | | | | |c rows]; try discriminate. cbn [runModule stepCh].
    assert (T : t = codeTy c /\ t' = codeTy c).
    { destruct c as [c| |], t; cbn in H; try discriminate H; try (injection H as <-; auto).
      destruct (codenum c =? codenum c0) eqn:E; [|discriminate]. injection H as <-. apply codenum_eqb in E. subst. auto. }
    destruct T as [-> ->].
    assert (FB : forallb (hasCode c) fr = true).
    { apply forallb_forall. intros s Hs. rewrite Forall_forall in HF. specialize (HF s Hs). destruct c, s; cbn in HF; try discriminate HF; cbn; auto. injection HF as ->. apply codenum_refl. }
    rewrite FB. unfold matrix_frame.
    pose proof (rmapM_good (fun row => toSmp c (dot (ofSmp c) dmul dadd row fr (dOfZ 0))) (fun _ => True) (fun s => tyOf s = codeTy c) rows) as G.
    assert (G1 : good (fun l' => length l' = length rows /\ Forall (fun s => tyOf s = codeTy c) l') (rmapM (fun row => toSmp c (dot (ofSmp c) dmul dadd row fr (dOfZ 0))) rows)).
    { apply G; [apply Forall_forall; auto|]. intros row _. destruct c; cbn; auto. eapply good_bind; [apply good_toInt|]. intros; reflexivity. }
    destruct (rmapM _ rows); cbn in *; auto. destruct G1 as [L FF]. split; [unfold zlen; rewrite L; reflexivity|exact FF].
  - assert (R : runModule m fr = rmapM (run1 m) fr) by (destruct m; try discriminate; reflexivity).
    assert (SC : stepCh m n = n) by (destruct m; try discriminate; reflexivity). rewrite R, SC.
    pose proof (rmapM_good (run1 m) (fun s => tyOf s = t) (fun s => tyOf s = t') fr HF) as G.
    assert (G1 : good (fun l' => length l' = length fr /\ Forall (fun s => tyOf s = t') l') (rmapM (run1 m) fr)).
    { apply G. intros s Hs. apply run1_ty; [rewrite Hs; exact H|]. intros c r ->. discriminate. }
    destruct (rmapM (run1 m) fr); cbn in *; auto. destruct G1 as [L FF]. split; [unfold zlen in *; rewrite L; exact Hn|exact FF].
Qed.

Lemma runChain_ty ms : forall t t' n fr, stepsTy ms t = Some t' -> frameTy t n fr -> good (frameTy t' (stepsCh ms n)) (runChain ms fr).
Proof.
  induction ms as [|m ms IH]; intros t t' n fr H HF; cbn in *.
  - injection H as <-. exact HF.
  - destruct (stepTy m t) as [t1|] eqn:E; [|discriminate]. eapply good_bind; [eapply runModule_ty; eauto|]. intros fr1 H1. eapply IH; eauto.
Qed.

(** The chain [arrange] builds goes from the type of the one format to that of the other. *)
Lemma arrange_ty wrapv host rd fin fout matrix ms t t' :
  fmtTy fin = Some t -> fmtTy fout = Some t' -> arrange wrapv host rd fin fout matrix = Ok (Some ms) ->
  stepsTy ms t = Some t' /\ stepsCh ms (channelCount fin) = (if channelCount fin =? channelCount fout then channelCount fin else zlen (matrixRows rd (channelCount fin) (channelCount fout) matrix)).
Proof.
  unfold fmtTy, arrange, arrangeCore. intros H1 H2 HA.
  destruct (getFormatCode fin) as [infc|] eqn:E1; [|discriminate]. destruct (getFormatCode fout) as [outfc|] eqn:E2; [|discriminate].
  cbv zeta in HA.
  set (w1 := _ && negb (compressed fin)) in HA. clearbody w1.
  set (w2 := _ && (rd || compressed fin)) in HA. clearbody w2.
  set (w13 := _ && negb (compressed fout)) in HA. clearbody w13.
  set (w12 := _ && (negb rd || compressed fout)) in HA. clearbody w12.
  match type of HA with rbind (rbind ?r _) _ = _ => destruct r as [im| | |]; try discriminate HA end. cbn [rbind] in HA.
  set (om := match isUnsigned fout with true => _ | false => _ end) in HA. clearbody om.
  set (cl1 := SFltb (minClip im) (maxClip im) && _) in HA. clearbody cl1.
  set (cl2 := SFltb (minClip om) (maxClip om)) in HA. clearbody cl2.
  set (tr := (_ || _) && negb (_ && _)) in HA. clearbody tr.
  set (tc := trivialClip om outfc) in HA. clearbody tc.
  assert (U1 : forall b, isUnsigned fin = b -> infc = kFloat \/ infc = kDouble -> b = false).
  { intros b <- [-> | ->]; unfold getFormatCode, isUnsigned in *; destruct (sampleFormat fin); try reflexivity; repeat match type of E1 with match ?x with _ => _ end = _ => destruct x end; discriminate E1. }
  assert (U2 : forall b, isUnsigned fout = b -> outfc = kFloat \/ outfc = kDouble -> b = false).
  { intros b <- [-> | ->]; unfold getFormatCode, isUnsigned in *; destruct (sampleFormat fout); try reflexivity; repeat match type of E2 with match ?x with _ => _ end = _ => destruct x end; discriminate E2. }
  destruct (isUnsigned fin) eqn:IU; destruct (isUnsigned fout) eqn:OU;
  destruct infc as [ic| |]; try (specialize (U1 _ eq_refl ltac:(auto)); discriminate); injection H1 as <-;
  destruct outfc as [oc| |]; try (specialize (U2 _ eq_refl ltac:(auto)); discriminate); injection H2 as <-; clear U1 U2 E1 E2 IU OU.
  all: destruct tr; cbn [code_eqb negb andb orb] in HA.
  all: repeat match type of HA with context[if ?b then kDouble else kFloat] => destruct b end; cbn [code_eqb negb andb orb] in HA.
  all: repeat match type of HA with context[if codenum ?a =? codenum ?b then _ else _] => let EE := fresh "EE" in destruct (codenum a =? codenum b) eqn:EE; [apply codenum_eqb in EE; subst|] end.
  all: repeat (match type of HA with context[negShift ?a ?b] => destruct (negShift a b); cbn [rbind] in HA; try discriminate HA end); cbn [rbind] in HA; injection HA as <-.
  all: repeat (first [rewrite stepsTy_app | rewrite stepsTy_when by (cbn; rewrite ?codenum_refl; reflexivity) | progress (cbn [stepsTy stepTy]; rewrite ?codenum_refl)]).
  all: split; [reflexivity|].
  all: destruct (channelCount fin =? channelCount fout); cbn [negb].
  all: repeat (first [rewrite stepsCh_app | match goal with |- context[stepsCh (when ?b [?m]) ?n] => match m with MMatrix _ _ => fail 1 | _ => rewrite (stepsCh_when b m n) by reflexivity end end | progress cbn [stepsCh stepCh when]]).
  all: reflexivity.
Qed.
