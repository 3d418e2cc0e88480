(** * Proofs about the converters on memory *)
From Verif Require Import Prelude PreludeFacts ByteOrder ByteOrderProofs Convert ConvertProofs Float FloatFacts FloatConv FloatBits FloatValid Arrange ArrangeProofs Memory.
From Coq Require Import Lia.

(** ** Lists *)
Lemma groups_concat {A} k (cs : list (list A)) rest : Forall (fun c => length c = k) cs -> groups k (length cs) (concat cs ++ rest) = cs.
Proof.
  induction cs as [|c cs IH]; intros H; [reflexivity|]. apply Forall_cons_iff in H as [Hc H]. cbn [length groups concat]. rewrite <- app_assoc.
  rewrite firstn_app, skipn_app, Hc, Nat.sub_diag, firstn_O, app_nil_r. rewrite <- Hc at 1. rewrite firstn_all. rewrite <- Hc at 2. rewrite skipn_all. cbn [app skipn]. rewrite IH by auto. reflexivity.
Qed.
Lemma zlen_concat_cells k (cs : list (list Z)) : Forall (fun c => length c = k) cs -> zlen (concat cs) = Z.of_nat k * zlen cs.
Proof. induction cs as [|c cs IH]; intros H; [rewrite Z.mul_0_r; reflexivity|]. apply Forall_cons_iff in H as [Hc H]. cbn [concat]. rewrite zlen_app, zlen_cons, IH by auto. unfold zlen at 1. lia. Qed.
Lemma concat_len_const {A} k (cs : list (list A)) : Forall (fun c => length c = k) cs -> length (concat cs) = (length cs * k)%nat.
Proof. induction cs as [|c cs IH]; intros H; [reflexivity|]. apply Forall_cons_iff in H as [Hc H]. cbn [concat length]. rewrite app_length, IH by auto. lia. Qed.
Lemma rmapM_app {A B} (f : A -> res B) l1 l2 r : rmapM f (l1 ++ l2) = Ok r -> exists r1 r2, rmapM f l1 = Ok r1 /\ rmapM f l2 = Ok r2 /\ r = r1 ++ r2.
Proof.
  revert r. induction l1 as [|a l1 IH]; intros r H; cbn [app rmapM] in *; [exists [], r; auto|].
  destruct (f a) as [b| | |]; try discriminate. cbn [rbind] in *. destruct (rmapM f (l1 ++ l2)) as [q| | |] eqn:E; try discriminate. cbn [rbind] in H.
  destruct (IH q eq_refl) as (r1 & r2 & -> & -> & ->). cbn [rbind]. exists (b :: r1), r2. split; [reflexivity|]. split; [reflexivity|]. cbn. congruence.
Qed.
Lemma rmapM_app_ok {A B} (f : A -> res B) l1 l2 r1 r2 : rmapM f l1 = Ok r1 -> rmapM f l2 = Ok r2 -> rmapM f (l1 ++ l2) = Ok (r1 ++ r2).
Proof.
  revert r1. induction l1 as [|a l1 IH]; intros r1 H1 H2; cbn [app rmapM] in *; [assert (r1 = []) as -> by congruence; exact H2|].
  destruct (f a) as [b| | |]; try discriminate. cbn [rbind] in *. destruct (rmapM f l1) as [q| | |] eqn:E; try discriminate. cbn [rbind] in H1.
  rewrite (IH q eq_refl H2). cbn [rbind]. assert (r1 = b :: q) as -> by congruence. reflexivity.
Qed.
Lemma rmapM_concat {A B} (f : A -> res B) ll rr : rmapM (rmapM f) ll = Ok rr -> rmapM f (concat ll) = Ok (concat rr).
Proof.
  revert rr. induction ll as [|l ll IH]; intros rr H; cbn [rmapM concat] in *; [assert (rr = []) as -> by congruence; reflexivity|].
  destruct (rmapM f l) as [r| | |] eqn:E1; try discriminate. cbn [rbind] in H. destruct (rmapM (rmapM f) ll) as [q| | |] eqn:E2; try discriminate. cbn [rbind] in H.
  assert (rr = r :: q) as -> by congruence. cbn [concat]. apply rmapM_app_ok; auto.
Qed.
Lemma rmapM_bind {A B C} (f : A -> res B) (g : B -> res C) l r : rmapM (fun x => rbind (f x) g) l = Ok r -> exists m, rmapM f l = Ok m /\ rmapM g m = Ok r.
Proof.
  revert r. induction l as [|a l IH]; intros r H; cbn [rmapM] in *; [exists []; auto|].
  destruct (f a) as [b| | |]; try discriminate. cbn [rbind] in *. destruct (g b) as [c| | |] eqn:Eg; try discriminate. cbn [rbind] in H.
  destruct (rmapM (fun x => rbind (f x) g) l) as [q| | |] eqn:E; try discriminate. cbn [rbind] in H.
  destruct (IH q eq_refl) as (m & E1 & E2). exists (b :: m). rewrite E1. cbn [rbind rmapM]. rewrite Eg. cbn [rbind]. rewrite E2. cbn [rbind]. split; [reflexivity|exact H].
Qed.
Lemma rmapM_ext {A B} (f g : A -> res B) l : (forall a, f a = g a) -> rmapM f l = rmapM g l.
Proof. intros H. induction l as [|a l IH]; cbn; [reflexivity|]. rewrite H, IH. reflexivity. Qed.
Lemma rmapM_len {A B} (f : A -> res B) l r : rmapM f l = Ok r -> length r = length l.
Proof.
  revert r. induction l as [|a l IH]; intros r H; cbn [rmapM] in H; [assert (r = []) as -> by congruence; reflexivity|].
  destruct (f a); try discriminate. cbn [rbind] in H. destruct (rmapM f l) as [q| | |]; try discriminate. cbn [rbind] in H. assert (r = a0 :: q) as -> by congruence. cbn. rewrite (IH q); auto.
Qed.
Lemma rmapM_Forall {A B} (f : A -> res B) (P : A -> Prop) (Q : B -> Prop) l r : rmapM f l = Ok r -> Forall P l -> (forall a b, P a -> f a = Ok b -> Q b) -> Forall Q r.
Proof.
  intros H HP HQ. revert r H. induction HP as [|a l Ha HP IH]; intros r H; cbn [rmapM] in H; [assert (r = []) as -> by congruence; constructor|].
  destruct (f a) as [b| | |] eqn:E; try discriminate. cbn [rbind] in H. destruct (rmapM f l) as [q| | |]; try discriminate. cbn [rbind] in H. assert (r = b :: q) as -> by congruence. constructor; eauto.
Qed.

(** ** Samples and bytes *)
Definition packedSize (t : ty) : nat := match t with TI kInt24 | TU kInt24 => 3%nat | _ => tysize t end.
(** A sample as it appears in [k] bytes. *)
Definition seen (k : nat) (s : smp) : smp :=
  match s with SI c z => SI c (sN (8 * Z.of_nat k) z) | SU c z => SU c (uN (8 * Z.of_nat k) z) | _ => s end.
(** A sample the C type can hold. *)
Definition okSmp (s : smp) : Prop :=
  match s with
  | SI c z => - 2 ^ (cbits c - 1) <= z < 2 ^ (cbits c - 1)
  | SU c z => 0 <= z < 2 ^ cbits c
  | SF f => validF f = true
  | SD f => validD f = true
  end.

Lemma tysize_bits c : 8 * Z.of_nat (tysize (TI c)) = cbits c /\ tysize (TU c) = tysize (TI c).
Proof. destruct c; split; reflexivity. Qed.
Lemma tysize_pos t : (1 <= tysize t <= 8)%nat.
Proof. destruct t as [[]|[]| |]; cbn; lia. Qed.
Lemma load_store o n x : load o (store o n x) = x mod 2 ^ (8 * Z.of_nat n).
Proof. destruct o; cbn [load store]; [apply be_val_bytes|apply le_val_bytes]. Qed.
Lemma store_len o n x : length (store o n x) = n.
Proof. destruct o; [apply be_bytes_length|apply le_bytes_length]. Qed.
Lemma store_ok o n x : bytes_ok (store o n x) = true.
Proof. destruct o; [apply be_bytes_ok|apply le_bytes_ok]. Qed.
Lemma load_range o b : bytes_ok b = true -> 0 <= load o b < 2 ^ (8 * zlen b).
Proof. destruct o; [apply be_val_range|apply le_val_range]. Qed.
Lemma load_rev o b : load o (rev b) = load (match o with BigEndian => LittleEndian | LittleEndian => BigEndian end) b.
Proof. destruct o; cbn [load]; unfold be_val; rewrite ?rev_involutive; reflexivity. Qed.

Lemma sN_mod n x : 0 < n -> sN n (x mod 2 ^ n) = sN n x.
Proof. intros H. unfold sN. rewrite Zplus_mod_idemp_l. reflexivity. Qed.

Lemma enc_facts o s : okSmp s -> length (enc o s) = tysize (tyOf s) /\ bytes_ok (enc o s) = true /\ dec o (tyOf s) (enc o s) = s.
Proof.
  destruct s as [c z|c z|f|f]; cbn [okSmp enc tyOf dec]; intros H.
  - rewrite store_len. split; [reflexivity|]. split; [apply store_ok|]. unfold zlen. rewrite store_len, load_store. destruct (tysize_bits c) as [E _]. rewrite E.
    f_equal. unfold uN. assert (0 < cbits c) by (destruct c; cbn; lia). rewrite Z.mod_mod by (apply Z.pow_nonzero; lia). rewrite sN_mod by lia. apply sN_small; auto.
  - rewrite store_len. split; [reflexivity|]. split; [apply store_ok|]. rewrite load_store. destruct (tysize_bits c) as [E ->]. rewrite E.
    f_equal. unfold uN. rewrite !Z.mod_small by (rewrite ?Z.mod_small; lia). reflexivity.
  - rewrite store_len. split; [reflexivity|]. split; [apply store_ok|]. rewrite load_store. destruct (bits32_round f H) as [R E]. change (8 * Z.of_nat 4) with 32. rewrite Z.mod_small by exact R. congruence.
  - rewrite store_len. split; [reflexivity|]. split; [apply store_ok|]. rewrite load_store. destruct (bits64_round f H) as [R E]. change (8 * Z.of_nat 8) with 64. rewrite Z.mod_small by exact R. congruence.
Qed.

Lemma ofBits_valid prec emax n : 2 <= prec -> prec < emax -> 0 <= n < 4 * emax * 2 ^ (prec - 1) -> valid_binary prec emax (ofBits prec emax n) = true.
Proof.
  intros Hp He Hn. unfold ofBits. set (F := 2 ^ (prec - 1)) in *. assert (PF : 0 < F) by (apply Z.pow_pos_nonneg; lia).
  set (s := 2 * emax * F <=? n). set (n' := if s then n - 2 * emax * F else n). assert (Hn' : 0 <= n' < 2 * emax * F) by (unfold n', s; destruct (2 * emax * F <=? n) eqn:E; lia).
  clearbody s n'. clear n Hn. assert (HF : F = 2 ^ (prec - 1)) by reflexivity. 
  assert (Hx : 0 <= n' / F < 2 * emax) by (split; [apply Z.div_pos; lia|apply Z.div_lt_upper_bound; lia]).
  pose proof (Z.mod_pos_bound n' F PF) as Hr.
  assert (E2 : 2 ^ prec = 2 * F) by (rewrite HF; replace prec with (1 + (prec - 1)) at 1 by lia; rewrite Z.pow_add_r by lia; reflexivity).
  set (xx := n' / F) in *. set (rr := n' mod F) in *. clearbody xx rr F. clear n' Hn'.
  destruct (xx =? 0) eqn:X0.
  - destruct (rr =? 0) eqn:R0; [reflexivity|]. cbn [valid_binary]. apply bounded_spec. split; [|unfold emin; lia].
    pose proof (digits_bounds (Z.to_pos (rr))) as DB. rewrite Z2Pos.id in DB by lia.
    assert (Zpos (digits2_pos (Z.to_pos (rr))) <= prec - 1).
    { destruct (Z.le_gt_cases (Zpos (digits2_pos (Z.to_pos (rr)))) (prec - 1)); auto.
      assert (F <= 2 ^ (Zpos (digits2_pos (Z.to_pos (rr))) - 1)) by (rewrite HF; apply Z.pow_le_mono_r; lia). lia. }
    unfold fexp. lia.
  - destruct (xx =? 2 * emax - 1) eqn:X1; [destruct (rr =? 0); reflexivity|]. cbn [valid_binary]. apply bounded_spec.
    rewrite (digits_unique (Z.to_pos (rr + F)) prec). 2:{ rewrite Z2Pos.id by lia. rewrite <- HF. lia. }
    unfold fexp, emin. lia.
Qed.

(** What is read from memory is a sample of the type. *)
Lemma dec_facts o t b : bytes_ok b = true -> length b = tysize t \/ length b = packedSize t -> tyOf (dec o t b) = t /\ okSmp (dec o t b) /\ seen (length b) (dec o t b) = dec o t b.
Proof.
  intros Hb Hl. pose proof (load_range o b Hb) as R.
  assert (Hz : 8 * zlen b = 8 * Z.of_nat (length b)) by reflexivity.
  assert (Lb : (1 <= length b)%nat /\ (forall c, t = TI c \/ t = TU c -> 8 * zlen b <= cbits c)).
  { split; [destruct t as [[]|[]| |]; cbn in Hl; lia|]. intros c Hc. rewrite Hz. clear R Hz. destruct Hc as [-> | ->]; destruct c; cbn [tysize packedSize cbits] in *; lia. }
  destruct Lb as [L1 L2]. destruct t as [c|c| |]; cbn [dec tyOf okSmp seen].
  - split; [reflexivity|]. specialize (L2 c (or_introl eq_refl)). pose proof (sN_range (8 * zlen b) (load o b) ltac:(lia)) as SR. split.
    + assert (2 ^ (8 * zlen b - 1) <= 2 ^ (cbits c - 1)) by (apply Z.pow_le_mono_r; lia). lia.
    + f_equal. rewrite <- Hz. apply sN_small; lia.
  - split; [reflexivity|]. specialize (L2 c (or_intror eq_refl)). split.
    + assert (2 ^ (8 * zlen b) <= 2 ^ cbits c) by (apply Z.pow_le_mono_r; lia). lia.
    + f_equal. rewrite <- Hz. apply uN_small; lia.
  - assert (E : 8 * zlen b = 32) by (rewrite Hz; cbn in Hl; lia). rewrite E in R. split; [reflexivity|]. split; [|reflexivity]. apply (ofBits_valid 24 128); [lia|lia|exact R].
  - assert (E : 8 * zlen b = 64) by (rewrite Hz; cbn in Hl; lia). rewrite E in R. split; [reflexivity|]. split; [|reflexivity]. apply (ofBits_valid 53 1024); [lia|lia|exact R].
Qed.
Lemma seen_full s : okSmp s -> seen (tysize (tyOf s)) s = s.
Proof.
  destruct s as [c z|c z|f|f]; cbn [okSmp seen tyOf]; intros H; try reflexivity.
  - destruct (tysize_bits c) as [-> _]. f_equal. apply sN_small; [destruct c; cbn; lia|lia].
  - destruct (tysize_bits c) as [E ->]. rewrite E. f_equal. apply uN_small; lia.
Qed.

(** ** Values the modules produce *)
Definition validPCM (p : pcmInfo) : Prop := validD (slope p) = true /\ validD (intercept p) = true /\ validD (minClip p) = true /\ validD (maxClip p) = true.
Definition validModule (m : module) : Prop :=
  match m with
  | MClip _ p => validPCM p
  | MTransform _ i o => validPCM i /\ validPCM o
  | MFloatToInt _ _ i o => validPCM i /\ validPCM o
  | MMatrix _ rows => Forall (Forall (fun x => validD x = true)) rows
  | _ => True
  end.
Lemma affine_valid i o x : validPCM i -> validPCM o -> validD x = true -> validD (affine i o x) = true.
Proof. intros (A1 & A2 & A3 & A4) (B1 & B2 & B3 & B4) H. unfold affine. auto using dadd_valid, dmul_valid, ddiv_valid, dsub_valid. Qed.
Lemma fminmax_valid prec emax a b : valid_binary prec emax a = true -> valid_binary prec emax b = true -> valid_binary prec emax (fmin a b) = true /\ valid_binary prec emax (fmax a b) = true.
Proof. intros H1 H2. unfold fmin, fmax. split; destruct (SFltb _ _); auto. Qed.
Lemma toInt_range w x z : toInt w x = Ok z -> inS w z = true.
Proof. unfold toInt. destruct (truncZ x) as [y|]; [|discriminate]. destruct (inS w y) eqn:E; [|discriminate]. intros H. assert (y = z) by congruence. subst. exact E. Qed.
Lemma cbits_pos c : 0 < cbits c. Proof. destruct c; cbn; lia. Qed.
Lemma inS_bounds w z : inS w z = true -> - 2 ^ (w - 1) <= z < 2 ^ (w - 1).
Proof. unfold inS. intros H. apply andb_true_iff in H as [A B]. lia. Qed.

Lemma run1_ok m s s' : validModule m -> okSmp s -> run1 m s = Ok s' -> okSmp s'.
Proof.
  intros V O H. destruct m as [| | |c fs|c p|c dbl|dbl i o|i o|dbl o i p|td|c r].
  - cbn in H. assert (s' = s) as -> by congruence. exact O.
  - cbn in H. assert (s' = s) as -> by congruence. exact O.
  - cbn in H. assert (s' = s) as -> by congruence. exact O.
  - destruct fs, s as [c' z|c' z|f|f]; try discriminate H; cbn [run1] in H; (destruct (codenum c =? codenum c') eqn:E; [|discriminate]).
    + unfold signedToUnsigned in H. destruct (ck32 (z - kMinSignedValue c)) as [y| | |]; try discriminate H. cbn [rbind rmap] in H. unfold rmap in H. cbn [rbind] in H.
      assert (s' = SU c (uN (cbits c) y)) as -> by congruence. cbn [okSmp]. pose proof (cbits_pos c). apply uN_range. lia.
    + assert (s' = SI c (unsignedToSigned c z)) as -> by congruence. cbn [okSmp]. unfold unsignedToSigned. apply sN_range, cbits_pos.
  - destruct V as (V1 & V2 & V3 & V4). destruct c as [c| |], s as [c' z|c' z|f|f]; try discriminate H; cbn [run1] in H.
    + destruct (codenum c =? codenum c') eqn:E; [|discriminate]. apply codenum_eqb in E. subst c'.
      destruct (toInt (cbits c) (minClip p)) as [lo| | |] eqn:E1; try discriminate H. destruct (toInt (cbits c) (maxClip p)) as [hi| | |] eqn:E2; try discriminate H. cbn [rbind] in H.
      assert (s' = SI c (clipInt lo hi z)) as -> by congruence. cbn [okSmp] in *. unfold clipInt. pose proof (inS_bounds _ _ (toInt_range _ _ _ E1)). pose proof (inS_bounds _ _ (toInt_range _ _ _ E2)). lia.
    + assert (s' = SF (fmax (fmin f (toFloat (maxClip p))) (toFloat (minClip p)))) as -> by congruence. cbn [okSmp] in *. apply fminmax_valid; [|apply toFloat_valid]. apply fminmax_valid; [exact O|apply toFloat_valid].
    + assert (s' = SD (fmax (fmin f (maxClip p)) (minClip p))) as -> by congruence. cbn [okSmp] in *. apply fminmax_valid; [|assumption]. apply fminmax_valid; assumption.
  - destruct s as [c' z|c' z|f|f]; try discriminate H; cbn [run1] in H. destruct (codenum c =? codenum c') eqn:E; [|discriminate].
    destruct dbl; [assert (s' = SD (dOfZ z)) as -> by congruence; apply dOfZ_valid|assert (s' = SF (fOfZ z)) as -> by congruence; apply fOfZ_valid].
  - destruct V as [V1 V2]. destruct dbl, s as [c' z|c' z|f|f]; try discriminate H; cbn [run1] in H.
    + assert (s' = SD (affine i o f)) as -> by congruence. cbn [okSmp] in *. apply affine_valid; auto.
    + assert (s' = SF (toFloat (affine i o (toDouble f)))) as -> by congruence. apply toFloat_valid.
  - destruct s as [c' z|c' z|f|f]; try discriminate H; cbn [run1] in H. destruct (codenum i =? codenum c') eqn:E; [|discriminate].
    unfold convertInt in H. destruct (codenum i >? codenum o).
    + unfold rmap in H. cbn [rbind] in H. match type of H with Ok (SI o (sN ?a ?b)) = _ => assert (s' = SI o (sN a b)) as -> by congruence end. apply sN_range, cbits_pos.
    + unfold rmap in H. destruct (ck32 _) as [y| | |]; try discriminate H. cbn [rbind] in H. match type of H with Ok (SI o (sN ?a ?b)) = _ => assert (s' = SI o (sN a b)) as -> by congruence end. apply sN_range, cbits_pos.
  - destruct V as [V1 V2]. destruct dbl, s as [c' z|c' z|f|f]; try discriminate H; cbn [run1] in H; unfold floatToIntClip, rmap in H;
      (destruct (toInt _ _) as [y| | |] eqn:E; try discriminate H; cbn [rbind] in H; assert (s' = SI o y) as -> by congruence; apply inS_bounds, (toInt_range _ _ _ E)).
  - destruct td, s as [c' z|c' z|f|f]; try discriminate H; cbn [run1] in H.
    + assert (s' = SD (toDouble f)) as -> by congruence. apply toDouble_valid.
    + assert (s' = SF (toFloat f)) as -> by congruence. apply toFloat_valid.
  - destruct s; discriminate H.
Qed.
Lemma ofSmp_valid c s : okSmp s -> validD (ofSmp c s) = true.
Proof. destruct s; cbn; intros; auto using dOfZ_valid, toDouble_valid. Qed.
Lemma dot_valid c row : forall fr acc, Forall (fun x => validD x = true) row -> Forall okSmp fr -> validD acc = true -> validD (dot (ofSmp c) dmul dadd row fr acc) = true.
Proof.
  induction row as [|x row IH]; intros fr acc Hr Hf Ha; cbn [dot]; [exact Ha|]. destruct fr as [|s fr]; [exact Ha|]. apply Forall_cons_iff in Hr as [Hx Hr]. apply Forall_cons_iff in Hf as [Hs Hf].
  apply IH; auto. apply dadd_valid; auto. apply dmul_valid; auto. apply ofSmp_valid; auto.
Qed.
Lemma runModule_ok m fr fr' : validModule m -> Forall okSmp fr -> runModule m fr = Ok fr' -> Forall okSmp fr'.
Proof.
  intros V O H. destruct (match m with MMatrix _ _ => true | _ => false end) eqn:IM.
  - destruct m as [| | | | | | | | | |c rows]; try discriminate. cbn [runModule validModule] in *. destruct (forallb (hasCode c) fr); [|discriminate]. unfold matrix_frame in H.
    eapply rmapM_Forall; [exact H|exact V|]. intros row s Hr Hs. cbv beta in Hs. pose proof (dot_valid c row fr (dOfZ 0) Hr O (dOfZ_valid 0)) as D. set (d := dot _ _ _ _ _ _) in *. clearbody d.
    destruct c as [c| |]; cbn [toSmp] in Hs.
    + unfold rmap in Hs. destruct (toInt (cbits c) d) as [y| | |] eqn:E; try discriminate. cbn [rbind] in Hs. assert (s = SI c y) as -> by congruence. apply inS_bounds, (toInt_range _ _ _ E).
    + assert (s = SF (toFloat d)) as -> by congruence. apply toFloat_valid.
    + assert (s = SD d) as -> by congruence. exact D.
  - assert (R : runModule m fr = rmapM (run1 m) fr) by (destruct m; try discriminate; reflexivity). rewrite R in H.
    eapply rmapM_Forall; [exact H|exact O|]. intros a b Ha Hb. eapply run1_ok; eauto.
Qed.

(** ** One module on memory *)
Definition flip (o : order) : order := match o with BigEndian => LittleEndian | LittleEndian => BigEndian end.
Definition isCells (k : nat) (cells : list (list Z)) : Prop := Forall (fun c => length c = k /\ bytes_ok c = true) cells.
(** [d] is the samples [ss] in cells of [k] bytes, byte order [o]. *)
Definition exactly (o : order) (t : ty) (k : nat) (ss : list smp) (d : list Z) : Prop :=
  exists cells, d = concat cells /\ isCells k cells /\ map (dec o t) cells = map (seen k) ss.
Lemma isCells_len k cells : isCells k cells -> Forall (fun c => length c = k) cells.
Proof. apply Forall_impl. tauto. Qed.
Lemma exactly_len o t k ss d : exactly o t k ss d -> zlen d = Z.of_nat k * zlen ss.
Proof.
  intros (cells & -> & C & E). rewrite (zlen_concat_cells k) by (apply isCells_len; auto). f_equal. unfold zlen. f_equal. apply (f_equal (@length smp)) in E. rewrite !map_length in E. exact E.
Qed.

Lemma mapCells_ok kin g cells os rest outb count : Forall (fun c => length c = kin) cells -> count = zlen cells -> rmapM g cells = Ok os -> zlen (concat os) <= zlen outb ->
  mapCells kin g count (concat cells ++ rest) outb = Ok (concat os ++ zskipn (zlen (concat os)) outb).
Proof.
  intros L -> G Z. unfold mapCells. pose proof (zlen_nonneg cells). pose proof (zlen_nonneg rest). rewrite Z.max_r by lia. rewrite zlen_app, (zlen_concat_cells kin) by auto.
  replace (Z.of_nat kin * zlen cells <=? Z.of_nat kin * zlen cells + zlen rest) with true by lia.
  unfold zlen at 1. rewrite Nat2Z.id. rewrite groups_concat by auto. rewrite G. cbn [rbind]. unfold put. replace (zlen (concat os) <=? zlen outb) with true by lia. reflexivity.
Qed.

Inductive Step (host : order) : module -> ty -> order -> nat -> bool -> ty -> order -> nat -> bool -> Prop :=
| S_swap t o x : (2 <= packedSize t)%nat -> Step host MSwap t o (packedSize t) x t (flip o) (packedSize t) x
| S_expand (sg : bool) t : t = (if sg then TI kInt24 else TU kInt24) -> Step host (MExpand3 sg) t host 3 true t host 4 true
| S_compress (sg : bool) t x : t = (if sg then TI kInt24 else TU kInt24) -> Step host (MCompress3 sg) t host 4 x t host 3 false
| S_val m t t' x : inTy m = Some t -> stepTy m t = Some t' -> Step host m t host (tysize t) x t' host (tysize t') true.

Lemma fmt_bps f t : fmtTy f = Some t -> bytesPerSample false f = Z.of_nat (packedSize t) /\ (compressed f = false -> bytesPerSample true f = Z.of_nat (tysize t)).
Proof.
  unfold fmtTy, getFormatCode, bytesPerSample, isUnsigned. rewrite andb_false_r. destruct (sampleFormat f).
  - set (q := Z.quot (sampleWidth f + 7) 8). intros H. destruct q as [|[[[| |]|[| |]|]|[[| |]|[| |]|]|]|]; try discriminate H; injection H as <-; (split; [reflexivity|]); intros ->; reflexivity.
  - set (q := Z.quot (sampleWidth f + 7) 8). intros H. destruct q as [|[[[| |]|[| |]|]|[[| |]|[| |]|]|]|]; try discriminate H; injection H as <-; (split; [reflexivity|]); intros ->; reflexivity.
  - intros H. injection H as <-. split; reflexivity.
  - intros H. injection H as <-. split; reflexivity.
Qed.
Lemma packed_le t : (packedSize t <= tysize t)%nat.
Proof. destruct t as [[]|[]| |]; cbn; lia. Qed.

Lemma rmapM_rmap {A B C} (f : A -> res B) (e : B -> C) l r : rmapM f l = Ok r -> rmapM (fun a => rmap e (f a)) l = Ok (map e r).
Proof.
  revert r. induction l as [|a l IH]; intros r H; cbn [rmapM] in *; [assert (r = []) as -> by congruence; reflexivity|].
  destruct (f a) as [b| | |]; try discriminate. cbn [rbind] in H. unfold rmap at 1. cbn [rbind]. destruct (rmapM f l) as [q| | |]; try discriminate. cbn [rbind] in H.
  rewrite (IH q eq_refl). assert (r = b :: q) as -> by congruence. reflexivity.
Qed.
Lemma rmapM_pure {A B} (g : A -> B) l : rmapM (fun a => Ok (g a)) l = Ok (map g l).
Proof. induction l as [|a l IH]; cbn; [reflexivity|]. rewrite IH. reflexivity. Qed.
Lemma enc_cells o ss : Forall okSmp ss -> forall t, Forall (fun s => tyOf s = t) ss -> isCells (tysize t) (map (enc o) ss) /\ map (dec o t) (map (enc o) ss) = ss.
Proof.
  induction ss as [|s ss IH]; intros O t T; [split; [constructor|reflexivity]|]. apply Forall_cons_iff in O as [O1 O]. apply Forall_cons_iff in T as [T1 T]. destruct (IH O t T) as [C D].
  destruct (enc_facts o s O1) as (A1 & A2 & A3). rewrite T1 in *. split; [constructor; auto|]. cbn [map]. rewrite A3, D. reflexivity.
Qed.
Lemma seen_map ss t : Forall okSmp ss -> Forall (fun s => tyOf s = t) ss -> map (seen (tysize t)) ss = ss.
Proof. intros O T. rewrite <- (map_id ss) at 2. apply map_ext_in. intros s Hs. rewrite Forall_forall in O, T. rewrite <- (T s Hs). apply seen_full. auto. Qed.
Lemma seen_map_id k ss : Forall (fun s => seen k s = s) ss -> map (seen k) ss = ss.
Proof. intros H. rewrite <- (map_id ss) at 2. apply map_ext_in. intros s Hs. rewrite Forall_forall in H. auto. Qed.
Lemma same_frames m frs : (forall s, run1 m s = Ok s) -> (forall c r, m <> MMatrix c r) -> rmapM (runModule m) frs = Ok frs.
Proof.
  intros H N. induction frs as [|fr frs IH]; [reflexivity|]. cbn [rmapM]. assert (E : runModule m fr = Ok fr).
  { assert (R : runModule m fr = rmapM (run1 m) fr) by (destruct m; try reflexivity; exfalso; eapply N; reflexivity). rewrite R. clear -H. induction fr as [|s fr IH]; [reflexivity|]. cbn [rmapM]. rewrite H. cbn [rbind]. rewrite IH. reflexivity. }
  rewrite E. cbn [rbind]. rewrite IH. reflexivity.
Qed.
Lemma concat_frames_len {A} ch (frs : list (list A)) : Forall (fun fr => zlen fr = ch) frs -> zlen (concat frs) = zlen frs * ch.
Proof. induction frs as [|fr frs IH]; intros H; [reflexivity|]. apply Forall_cons_iff in H as [H1 H]. cbn [concat]. rewrite zlen_app, zlen_cons, IH by auto. lia. Qed.
Lemma Forall_concat_in {A} (P : A -> Prop) ll : Forall P (concat ll) <-> Forall (Forall P) ll.
Proof. apply Forall_concat. Qed.

Definition typed (t : ty) (ch : Z) (frs : list (list smp)) : Prop := Forall (frameTy t ch) frs /\ Forall (Forall okSmp) frs.

Lemma u64_small x : 0 <= x < 2 ^ 64 -> u64 x = x. Proof. apply uN_small. Qed.
Lemma s32_small x : 0 <= x < 2 ^ 31 -> s32 x = x. Proof. intros H. apply sN_small; [lia|]. change (32 - 1) with 31. lia. Qed.
Lemma load_swap host c : (length c = 2 \/ length c = 3 \/ length c = 4 \/ length c = 8)%nat -> bytes_ok c = true -> forall o, load (flip o) (swap_sample host c) = load o c.
Proof. intros L B o. rewrite (swap_sample_rev host c L B), load_rev. destruct o; reflexivity. Qed.

Lemma groups_len {A} k n (l : list A) : length l = (n * k)%nat -> concat (groups k n l) = l /\ Forall (fun g => length g = k) (groups k n l) /\ length (groups k n l) = n.
Proof.
  revert l. induction n as [|n IH]; intros l H; cbn [groups concat length].
  - destruct l; [repeat split; constructor|discriminate].
  - destruct (IH (skipn k l)) as (A1 & A2 & A3). { rewrite skipn_length, H. lia. } rewrite A1, firstn_skipn. split; [reflexivity|]. split; [|rewrite A3; reflexivity].
    constructor; [rewrite firstn_length; lia|exact A2].
Qed.
Lemma concat_inj_len {A} k (a b : list (list A)) : Forall (fun g => length g = k) a -> Forall (fun g => length g = k) b -> length a = length b -> concat a = concat b -> a = b.
Proof.
  revert b. induction a as [|x a IH]; intros [|y b] Ha Hb L E; try discriminate; [reflexivity|].
  apply Forall_cons_iff in Ha as [Hx Ha]. apply Forall_cons_iff in Hb as [Hy Hb]. cbn [concat] in E.
  assert (x = y). { apply (f_equal (firstn k)) in E. rewrite !firstn_app, Hx, Hy, Nat.sub_diag, !firstn_O, !app_nil_r in E. rewrite <- Hx in E at 1. rewrite <- Hy in E. rewrite !firstn_all in E. exact E. }
  subst y. apply app_inv_head in E. f_equal. apply IH; auto.
Qed.
Lemma runModule_frames m t t' ch frs frs' : stepTy m t = Some t' -> validModule m -> typed t ch frs -> rmapM (runModule m) frs = Ok frs' -> typed t' (stepCh m ch) frs' /\ zlen frs' = zlen frs.
Proof.
  intros HT V [T O] R. split; [split|].
  - eapply rmapM_Forall; [exact R|exact T|]. intros a b Ha Hb. pose proof (runModule_ty m t t' ch a HT Ha) as G. rewrite Hb in G. exact G.
  - eapply rmapM_Forall; [exact R|exact O|]. intros a b Ha Hb. eapply runModule_ok; eauto.
  - unfold zlen. rewrite (rmapM_len _ _ _ R). reflexivity.
Qed.
Lemma concat_map_concat {A} (l : list (list (list A))) : concat (map (@concat A) l) = concat (concat l).
Proof. induction l as [|x l IH]; [reflexivity|]. cbn [map concat]. rewrite concat_app, IH. reflexivity. Qed.
Lemma concat_map_map {A B C} (e : B -> list C) (g : A -> list B) (l : list A) : concat (map (fun a => concat (map e (g a))) l) = concat (map e (concat (map g l))).
Proof. induction l as [|x l IH]; [reflexivity|]. cbn [map concat]. rewrite IH, map_app, concat_app. reflexivity. Qed.
Lemma step_ok host m t o k x t' o' k' x' f ch frs frs' inb outb :
  Step host m t o k x t' o' k' x' -> fmtTy f = Some t -> channelCount f = ch -> 1 <= ch -> validModule m -> typed t ch frs ->
  (x = true -> Forall (fun s => seen k s = s) (concat frs)) -> zlen frs * ch < 2 ^ 31 ->
  rmapM (runModule m) frs = Ok frs' ->
  (exists d rest, inb = d ++ rest /\ exactly o t k (concat frs) d) ->
  Z.of_nat k' * (zlen frs * stepCh m ch) <= zlen outb ->
  exists d, runMem host m f (zlen frs) inb outb = Ok (d ++ zskipn (zlen d) outb) /\ zlen d = Z.of_nat k' * (zlen frs * stepCh m ch) /\
            exactly o' t' k' (concat frs') d /\ typed t' (stepCh m ch) frs' /\ zlen frs' = zlen frs /\
            (x' = true -> Forall (fun s => seen k' s = s) (concat frs')).
Proof.
  intros S F Ch Hch V (T & O) X N R (d0 & rest & -> & cells & -> & C & E) Z.
  pose proof (zlen_nonneg frs) as N0. assert (NC : 0 <= zlen frs * ch < 2 ^ 31) by (split; [apply Z.mul_nonneg_nonneg; lia|lia]).
  change (2 ^ 31) with 2147483648 in *.
  assert (CC : u64 (zlen frs * u64 ch) = zlen frs * ch). { assert (HCH : 0 <= ch < 2 ^ 64 \/ zlen frs = 0). { destruct (Z.eq_dec (zlen frs) 0); [auto|left]. change (2 ^ 64) with 18446744073709551616. nia. }
    destruct HCH as [HCH|HCH]; [rewrite (u64_small ch) by exact HCH|rewrite HCH; reflexivity]. apply u64_small. change (2 ^ 64) with 18446744073709551616. lia. }
  assert (SC : s32 (u64 (zlen frs * u64 ch)) = zlen frs * ch) by (rewrite CC; apply s32_small; exact NC).
  assert (FL : Forall (fun fr => zlen fr = ch) frs) by (eapply Forall_impl; [|exact T]; intros a [Ha _]; exact Ha).
  assert (LC : zlen cells = zlen frs * ch). { rewrite <- (concat_frames_len ch frs FL). unfold zlen. f_equal. apply (f_equal (@length smp)) in E. rewrite !map_length in E. exact E. }
  assert (OC : Forall okSmp (concat frs)) by (apply Forall_concat; exact O).
  assert (TC : Forall (fun s => tyOf s = t) (concat frs)) by (apply Forall_concat; eapply Forall_impl; [|exact T]; intros a [_ Ha]; exact Ha).
  destruct (fmt_bps f t F) as [BF BT].
  inversion S as [t1 o1 x1 Hk | sg t1 Ht | sg t1 x1 Ht | m1 t1 t1' x1 HI HT]; subst; clear S.
  - (* swap *)
    rewrite (same_frames MSwap frs) in R by (reflexivity || discriminate). assert (frs' = frs) as -> by congruence. clear R.
    assert (KS : (packedSize t' = 2 \/ packedSize t' = 3 \/ packedSize t' = 4 \/ packedSize t' = 8)%nat) by (destruct t' as [[]|[]| |]; cbn in *; lia).
    set (cells' := map (swap_sample host) cells).
    assert (C' : isCells (packedSize t') cells').
    { apply Forall_map. eapply Forall_impl; [|exact C]. intros c [Lc Bc]. rewrite (swap_sample_rev host c) by (auto; rewrite Lc; exact KS). rewrite rev_length, bytes_ok_rev. auto. }
    assert (E' : map (dec (flip o) t') cells' = map (dec o t') cells).
    { unfold cells'. rewrite map_map. apply map_ext_in. intros c Hc. unfold isCells in C. rewrite Forall_forall in C. destruct (C c Hc) as [Lc Bc]. rewrite <- Lc in KS.
      assert (LZ : zlen (swap_sample host c) = zlen c) by (rewrite (swap_sample_rev host c KS Bc); unfold zlen; rewrite rev_length; reflexivity).
      destruct t' as [i|i| |]; cbn [dec]; rewrite ?LZ, (load_swap host c KS Bc); reflexivity. }
    assert (ZL : zlen (concat cells') = Z.of_nat (packedSize t') * (zlen frs * channelCount f)).
    { rewrite (zlen_concat_cells (packedSize t')) by (apply isCells_len; exact C'). unfold cells'. rewrite zlen_map, LC. reflexivity. }
    cbn [stepCh] in *. exists (concat cells'). split; [|split; [exact ZL|split; [exists cells'; split; [reflexivity|split; [exact C'|rewrite E'; exact E]]|split; [split; assumption|split; [reflexivity|exact X]]]]].
    unfold runMem. rewrite BF. 
    replace ((Z.of_nat (packedSize t') =? 2) || (Z.of_nat (packedSize t') =? 3) || (Z.of_nat (packedSize t') =? 4) || (Z.of_nat (packedSize t') =? 8)) with true by (destruct KS as [-> | [-> | [-> | ->]]]; reflexivity).
    rewrite Nat2Z.id, SC. apply mapCells_ok; [apply isCells_len; exact C|symmetry; exact LC|apply rmapM_pure|rewrite ZL; exact Z].
  - (* expand *)
    rewrite (same_frames (MExpand3 sg) frs) in R by (reflexivity || discriminate). assert (frs' = frs) as -> by congruence. clear R. set (t' := if sg then TI kInt24 else TU kInt24) in *.
    set (xp := fun c => if sg then s24 (load o' c) else load o' c).
    set (cells' := map (fun c => store o' 4 (u32 (xp c))) cells).
    assert (C' : isCells 4 cells') by (apply Forall_map, Forall_forall; intros c _; split; [apply store_len|apply store_ok]).
    assert (E' : map (dec o' t') cells' = map (dec o' t') cells).
    { unfold cells'. rewrite map_map. apply map_ext_in. intros c Hc. unfold isCells in C. rewrite Forall_forall in C. destruct (C c Hc) as [Lc Bc]. pose proof (load_range o' c Bc) as LR.
      assert (LZ : zlen c = 3) by (unfold zlen; rewrite Lc; reflexivity). rewrite LZ in LR. change (8 * 3) with 24 in LR.
      unfold t', xp. destruct sg; cbn [dec].
      - f_equal. unfold zlen at 1. rewrite store_len, load_store, LZ. change (8 * Z.of_nat 4) with 32. change (8 * 3) with 24. unfold u32, uN. rewrite Z.mod_mod by lia. rewrite sN_mod by lia.
        apply sN_small; [lia|]. pose proof (sN_range 24 (load o' c) ltac:(lia)) as SR. change (2 ^ (24 - 1)) with 8388608 in SR. change (2 ^ (32 - 1)) with 2147483648. unfold s24. lia.
      - f_equal. rewrite load_store. change (8 * Z.of_nat 4) with 32. unfold u32, uN. change (2 ^ 24) with 16777216 in LR. change (2 ^ 32) with 4294967296. rewrite !Z.mod_small by (rewrite ?Z.mod_small; lia). reflexivity. }
    assert (ZL : zlen (concat cells') = Z.of_nat 4 * (zlen frs * channelCount f)).
    { rewrite (zlen_concat_cells 4) by (apply isCells_len; exact C'). unfold cells'. rewrite zlen_map, LC. reflexivity. }
    assert (TS : tysize t' = 4%nat) by (unfold t'; destruct sg; reflexivity).
    assert (S4 : Forall (fun s => seen 4 s = s) (concat frs)). { apply Forall_forall. intros s Hs. rewrite Forall_forall in OC, TC. rewrite <- TS, <- (TC s Hs). apply seen_full. auto. }
    cbn [stepCh] in *. exists (concat cells'). split; [|split; [exact ZL|split; [exists cells'; split; [reflexivity|split; [exact C'|rewrite E', E]]|split; [split; assumption|split; [reflexivity|intros _; exact S4]]]]].
    2:{ rewrite (seen_map_id 3) by (apply X; reflexivity). rewrite (seen_map_id 4) by exact S4. reflexivity. }
    unfold runMem. rewrite SC. apply mapCells_ok; [apply isCells_len; exact C|symmetry; exact LC| |rewrite ZL; exact Z].
    unfold cells'. clear -C. induction cells as [|c cells IH]; [reflexivity|]. apply Forall_cons_iff in C as [[Lc Bc] C]. cbn [rmapM map]. rewrite expand3_val by auto. unfold rmap at 1. cbn [rbind]. rewrite IH by auto. reflexivity.
  - (* compress *)
    rewrite (same_frames (MCompress3 sg) frs) in R by (reflexivity || discriminate). assert (frs' = frs) as -> by congruence. clear R. set (t' := if sg then TI kInt24 else TU kInt24) in *.
    assert (TS : tysize t' = 4%nat) by (unfold t'; destruct sg; reflexivity).
    set (xp := fun c => if sg then s32 (load o' c) else load o' c).
    set (cells' := map (fun c => store o' 3 (xp c)) cells).
    assert (C' : isCells 3 cells') by (apply Forall_map, Forall_forall; intros c _; split; [apply store_len|apply store_ok]).
    assert (S4 : map (seen 4) (concat frs) = concat frs) by (rewrite <- TS; apply seen_map; assumption).
    assert (E' : map (dec o' t') cells' = map (seen 3) (map (dec o' t') cells)).
    { unfold cells'. rewrite !map_map. apply map_ext_in. intros c Hc. unfold isCells in C. rewrite Forall_forall in C. destruct (C c Hc) as [Lc Bc]. pose proof (load_range o' c Bc) as LR.
      assert (LZ : zlen c = 4) by (unfold zlen; rewrite Lc; reflexivity). rewrite LZ in LR. change (8 * 4) with 32 in LR.
      unfold t', xp. destruct sg; cbn [dec seen].
      - f_equal. unfold zlen at 1. rewrite store_len, load_store, LZ. change (8 * Z.of_nat 3) with 24. change (8 * 4) with 32. rewrite sN_mod by lia. reflexivity.
      - f_equal. rewrite load_store. reflexivity. }
    assert (ZL : zlen (concat cells') = Z.of_nat 3 * (zlen frs * channelCount f)).
    { rewrite (zlen_concat_cells 3) by (apply isCells_len; exact C'). unfold cells'. rewrite zlen_map, LC. reflexivity. }
    cbn [stepCh] in *. exists (concat cells'). split; [|split; [exact ZL|split; [exists cells'; split; [reflexivity|split; [exact C'|rewrite E', E, S4; reflexivity]]|split; [split; assumption|split; [reflexivity|discriminate]]]]].
    unfold runMem. rewrite SC. apply mapCells_ok; [apply isCells_len; exact C|symmetry; exact LC| |rewrite ZL; exact Z].
    rewrite rmapM_pure. unfold cells'. f_equal. apply map_ext. intros c. unfold xp. apply compress4_val.
  - (* values *)
    destruct (runModule_frames m t t' (channelCount f) frs frs' HT V (conj T O) R) as [[T' O'] L'].
    rewrite (seen_map (concat frs) t OC TC) in E.
    assert (OC' : Forall okSmp (concat frs')) by (apply Forall_concat; exact O').
    assert (TC' : Forall (fun s => tyOf s = t') (concat frs')) by (apply Forall_concat; eapply Forall_impl; [|exact T']; intros a [_ Ha]; exact Ha).
    destruct (enc_cells o' (concat frs') OC' t' TC') as [C' E'].
    assert (FL' : Forall (fun fr => zlen fr = stepCh m (channelCount f)) frs') by (eapply Forall_impl; [|exact T']; intros a [Ha _]; exact Ha).
    assert (ZL : zlen (concat (map (enc o') (concat frs'))) = Z.of_nat (tysize t') * (zlen frs * stepCh m (channelCount f))).
    { rewrite (zlen_concat_cells (tysize t')) by (apply isCells_len; exact C'). rewrite zlen_map, (concat_frames_len _ frs' FL'), L'. reflexivity. }
    exists (concat (map (enc o') (concat frs'))). split; [|split; [exact ZL|split; [|split; [split; assumption|split; [exact L'|]]]]].
    2:{ exists (map (enc o') (concat frs')). split; [reflexivity|]. split; [exact C'|]. rewrite E'. symmetry. apply seen_map; assumption. }
    2:{ intros _. apply Forall_forall. intros s Hs. rewrite Forall_forall in OC', TC'. rewrite <- (TC' s Hs). apply seen_full. auto. }
    destruct (match m with MMatrix _ _ => true | _ => false end) eqn:IM.
    + destruct m as [| | | | | | | | | |c rows]; try discriminate. cbn [inTy] in HI. assert (t = codeTy c) as -> by congruence. cbn [stepCh] in *.
      unfold runMem. set (k := tysize (codeTy c)) in *. set (ch := Z.to_nat (channelCount f)).
      assert (Ech : Z.of_nat ch = channelCount f) by (unfold ch; lia).
      assert (LCn : length cells = (length frs * ch)%nat) by (unfold zlen in LC; nia).
      destruct (groups_len ch (length frs) cells LCn) as (G1 & G2 & G3). set (gs := groups ch (length frs) cells) in *.
      assert (Dg : map (map (dec o' (codeTy c))) gs = frs).
      { apply (concat_inj_len ch).
        - apply Forall_map. eapply Forall_impl; [|exact G2]. intros g Hg. rewrite map_length. exact Hg.
        - eapply Forall_impl; [|exact FL]. intros fr Hfr. unfold zlen in Hfr. lia.
        - rewrite map_length. exact G3.
        - rewrite <- concat_map, G1. exact E. }
      assert (Cg : Forall (isCells k) gs). { apply Forall_concat. rewrite G1. exact C. }
      set (big := map (@concat BinNums.Z) gs).
      assert (Bg : concat cells = concat big) by (unfold big; rewrite concat_map_concat, G1; reflexivity).
      rewrite Bg.
      replace (concat (map (enc o') (concat frs'))) with (concat (map (fun fr => concat (map (enc o') fr)) frs')).
      2:{ rewrite (concat_map_map (enc o') (fun fr => fr)). rewrite map_id. reflexivity. }
      apply mapCells_ok.
      * unfold big. apply Forall_map. apply Forall_forall. intros g Hg. rewrite Forall_forall in Cg, G2. rewrite (concat_len_const k) by (apply isCells_len; apply Cg; exact Hg). rewrite (G2 g Hg). lia.
      * unfold big. rewrite zlen_map. unfold zlen at 2. rewrite G3. apply s32_small. change (2 ^ 31) with 2147483648. fold (zlen frs). nia.
      * unfold big. rewrite rmapM_map.
        transitivity (rmapM (fun g => rmap (fun ss => concat (map (enc o') ss)) (runModule (MMatrix c rows) g)) (map (map (dec o' (codeTy c))) gs)).
        -- rewrite rmapM_map. clear -Cg G2. induction gs as [|g gs IH]; [reflexivity|]. apply Forall_cons_iff in Cg as [Cg1 Cg]. apply Forall_cons_iff in G2 as [G21 G2]. cbn [rmapM]. rewrite IH by auto.
           pose proof (groups_concat k g [] (isCells_len _ _ Cg1)) as GC. rewrite app_nil_r, G21 in GC. rewrite GC. reflexivity.
        -- rewrite Dg. apply rmapM_rmap. exact R.
      * rewrite (concat_map_map (enc o') (fun fr => fr)), map_id, ZL. exact Z.
    + assert (R1 : rmapM (run1 m) (concat frs) = Ok (concat frs')).
      { apply rmapM_concat. rewrite <- R. apply rmapM_ext. intros fr. destruct m; try discriminate IM; reflexivity. }
      assert (SM : runMem o' m f (zlen frs) (concat cells ++ rest) outb = mapCells (tysize t) (fun b => rmap (enc o') (run1 m (dec o' t b))) (zlen frs * channelCount f) (concat cells ++ rest) outb).
      { unfold runMem. rewrite SC, CC. rewrite HI. destruct m; try discriminate IM; try discriminate HI; reflexivity. }
      rewrite SM. apply mapCells_ok; [apply isCells_len; exact C|symmetry; exact LC| |rewrite ZL; exact Z].
      rewrite <- (rmapM_map (dec o' t) (fun s => rmap (enc o') (run1 m s))). rewrite E. apply rmapM_rmap. exact R1.
Qed.

(** ** The whole chain *)
Inductive Steps (host : order) : list module -> ty -> order -> nat -> bool -> ty -> order -> nat -> bool -> Prop :=
| Ss_nil t o k x : Steps host [] t o k x t o k x
| Ss_cons m ms t o k x t1 o1 k1 x1 t2 o2 k2 x2 : Step host m t o k x t1 o1 k1 x1 -> Steps host ms t1 o1 k1 x1 t2 o2 k2 x2 -> Steps host (m :: ms) t o k x t2 o2 k2 x2.
Lemma Steps_app host l1 l2 t o k x t1 o1 k1 x1 t2 o2 k2 x2 : Steps host l1 t o k x t1 o1 k1 x1 -> Steps host l2 t1 o1 k1 x1 t2 o2 k2 x2 -> Steps host (l1 ++ l2) t o k x t2 o2 k2 x2.
Proof. induction 1 as [|m ms t o k x ta oa ka xa tb ob kb xb H1 H2 IH]; intros H3; [exact H3|]. cbn [app]. econstructor; eauto. Qed.
Lemma step_ty host m t o k x t' o' k' x' : Step host m t o k x t' o' k' x' -> stepTy m t = Some t' /\ (k' <= tysize t')%nat.
Proof.
  inversion 1; subst.
  - split; [reflexivity|apply packed_le].
  - split; [reflexivity|destruct sg; cbn; lia].
  - split; [reflexivity|destruct sg; cbn; lia].
  - split; [assumption|lia].
Qed.
Lemma fmtTy_int f c u : fmtTy f = Some (if u : bool then TU c else TI c) -> sampleFormat f = (if u then UNSIGNED else TWOSCOMP) /\ bytesPerSample false f = codenum c + 1.
Proof.
  intros H. destruct (fmt_bps f _ H) as [B _]. split.
  - clear B. unfold fmtTy, getFormatCode, isUnsigned in H. set (q := bytesPerSample false f) in *. clearbody q.
    destruct u, (sampleFormat f); try reflexivity; try discriminate H; exfalso; destruct q as [|[[[| |]|[| |]|]|[[| |]|[| |]|]|]|]; discriminate H.
  - rewrite B. destruct u, c; reflexivity.
Qed.
Lemma fmtTy_of f c u : sampleFormat f = (if u : bool then UNSIGNED else TWOSCOMP) -> bytesPerSample false f = codenum c + 1 -> fmtTy f = Some (if u then TU c else TI c).
Proof. intros S B. unfold fmtTy, getFormatCode, isUnsigned. rewrite S. destruct u; rewrite B; destruct c; reflexivity. Qed.
Lemma describe_facts m f t t' : fmtTy f = Some t -> stepTy m t = Some t' -> fmtTy (describe m f) = Some t' /\ compressed (describe m f) = compressed f /\ channelCount (describe m f) = stepCh m (channelCount f).
Proof.
  intros F S. split; [|destruct m as [| | | | |? []| | | |[]|]; split; reflexivity].
  destruct m as [| | |c fs|c p|c dbl|dbl i o|i o|dbl o i p|td|c r]; cbn [stepTy] in S.
  - assert (t' = t) as -> by congruence. exact F.
  - assert (t' = t) as -> by congruence. exact F.
  - assert (t' = t) as -> by congruence. exact F.
  - destruct fs, t as [c'|c'| |]; try discriminate S; (destruct (codenum c =? codenum c') eqn:E; [|discriminate]); apply codenum_eqb in E; subst c'.
    + assert (t' = TU c) as -> by congruence. destruct (fmtTy_int f c false F) as [A B]. apply (fmtTy_of _ c true); [reflexivity|]. cbn [describe setFmt]. unfold bytesPerSample in *. cbn [sampleFormat sampleWidth compressed]. rewrite A in B. rewrite !andb_false_r in *. exact B.
    + assert (t' = TI c) as -> by congruence. destruct (fmtTy_int f c true F) as [A B]. apply (fmtTy_of _ c false); [reflexivity|]. cbn [describe setFmt]. unfold bytesPerSample in *. cbn [sampleFormat sampleWidth compressed]. rewrite A in B. rewrite !andb_false_r in *. exact B.
  - assert (t' = t) as -> by (destruct c as [c| |], t as [c'|c'| |]; try discriminate S; try congruence; destruct (codenum c =? codenum c') eqn:E; [apply codenum_eqb in E; congruence|discriminate]). exact F.
  - destruct t as [c'|c'| |]; try discriminate S. destruct (codenum c =? codenum c') eqn:E; [|discriminate]. destruct dbl; injection S as <-; reflexivity.
  - assert (t' = t) as -> by (destruct dbl, t; try discriminate S; congruence). exact F.
  - destruct t as [c'|c'| |]; try discriminate S. destruct (codenum i =? codenum c') eqn:E; [|discriminate]. assert (t' = TI o) as -> by congruence.
    destruct (fmtTy_int f c' false F) as [A B]. apply (fmtTy_of _ o false); [exact A|]. cbn [describe setFmt]. unfold bytesPerSample. cbn [sampleFormat sampleWidth compressed]. rewrite A. rewrite andb_false_r. destruct o; reflexivity.
  - assert (t' = TI o) as -> by (destruct dbl, t; try discriminate S; congruence). apply (fmtTy_of _ o false); [reflexivity|]. cbn [describe setFmt]. unfold bytesPerSample. cbn [sampleFormat sampleWidth compressed]. rewrite andb_false_r. destruct o; reflexivity.
  - destruct td, t; try discriminate S; injection S as <-; reflexivity.
  - assert (t' = t) as -> by (destruct c as [c| |], t as [c'|c'| |]; try discriminate S; try congruence; destruct (codenum c =? codenum c') eqn:E; [apply codenum_eqb in E; congruence|discriminate]). exact F.
Qed.

(** The chunk of format [g] fits [n] frames in [cap] bytes. *)
Definition fitsIn (n cap : Z) (g : format) : Prop :=
  n * (bytesPerSample true g * channelCount g) <= cap /\ 1 <= channelCount g /\ n * channelCount g < 2 ^ 31.

Lemma runMods_ok host ms : forall t o k x t' o' k' x' f frs outs cur bufs final cap,
  Steps host ms t o k x t' o' k' x' -> ms <> [] -> fmtTy f = Some t -> compressed f = false -> Forall validModule ms -> typed t (channelCount f) frs ->
  (x = true -> Forall (fun s => seen k s = s) (concat frs)) ->
  Forall (fitsIn (zlen frs) cap) (formats ms f) -> 
  rmapM (runChain ms) frs = Ok outs ->
  (exists d rest, cur = d ++ rest /\ exactly o t k (concat frs) d) ->
  S (length bufs) = length ms -> Forall (fun b => cap <= zlen b) bufs -> Z.of_nat k' * (zlen frs * stepsCh ms (channelCount f)) <= zlen final ->
  exists d, runMods host ms f (zlen frs) cur bufs final = Ok (d ++ zskipn (zlen d) final) /\ zlen d = Z.of_nat k' * (zlen frs * stepsCh ms (channelCount f)) /\ exactly o' t' k' (concat outs) d /\
            typed t' (stepsCh ms (channelCount f)) outs.
Proof.
  induction ms as [|m ms IH]; intros t o k x t' o' k' x' f frs outs cur bufs final cap S NE F Cm V T X Fi R D LB CB ZF; [congruence|].
  inversion S as [|m0 ms0 t0 o0 k0 x0 t1 o1 k1 x1 t2 o2 k2 x2 S1 S2]; subst. apply Forall_cons_iff in V as [V1 V].
  cbn [formats] in Fi. apply Forall_cons_iff in Fi as [Fi1 Fi]. destruct (step_ty _ _ _ _ _ _ _ _ _ _ S1) as [TY KT]. destruct (describe_facts m f t t1 F TY) as (F' & Cm' & Ch').
  cbn [runChain] in R. apply rmapM_bind in R as (frs1 & R1 & R2).
  destruct Fi1 as (_ & Hch & Hn).
  destruct ms as [|m2 ms].
  - inversion S2; subst. cbn [stepsCh runMods] in *.
    destruct (step_ok host m t o k x t' o' k' x' f (channelCount f) frs frs1 cur final S1 F eq_refl Hch V1 T X Hn R1 D ZF) as (d & E1 & E2 & E3 & E4 & _).
    assert (outs = frs1) as ->. { change (rmapM (fun fr : list smp => Ok fr) frs1 = Ok outs) in R2. rewrite (rmapM_pure (fun fr => fr)), map_id in R2. congruence. }
    exists d. auto.
  - destruct bufs as [|b bufs]; [discriminate LB|]. apply Forall_cons_iff in CB as [CB1 CB].
    pose proof Fi as Fi'. cbn [formats] in Fi'. apply Forall_cons_iff in Fi' as [(Q1 & Q2 & Q3) _]. destruct (fmt_bps _ _ F') as [_ BT]. rewrite BT in Q1 by congruence. rewrite Ch' in *.
    assert (ZB : Z.of_nat k1 * (zlen frs * stepCh m (channelCount f)) <= zlen b).
    { pose proof (zlen_nonneg frs). assert (Z.of_nat k1 * (zlen frs * stepCh m (channelCount f)) <= Z.of_nat (tysize t1) * (zlen frs * stepCh m (channelCount f))) by (apply Z.mul_le_mono_nonneg_r; [apply Z.mul_nonneg_nonneg; lia|lia]).
      replace (zlen frs * (Z.of_nat (tysize t1) * stepCh m (channelCount f))) with (Z.of_nat (tysize t1) * (zlen frs * stepCh m (channelCount f))) in Q1 by ring. lia. }
    destruct (step_ok host m t o k x t1 o1 k1 x1 f (channelCount f) frs frs1 cur b S1 F eq_refl Hch V1 T X Hn R1 D ZB) as (d & E1 & E2 & E3 & E4 & E5 & E6).
    destruct (IH t1 o1 k1 x1 t' o' k' x' (describe m f) frs1 outs (d ++ zskipn (zlen d) b) bufs final cap) as (d' & G1 & G2 & G3 & G4); auto.
    + discriminate.
    + congruence.
    + rewrite Ch'. exact E4.
    + rewrite E5. exact Fi.
    + exists d, (zskipn (zlen d) b). auto.
    + rewrite E5, Ch'. exact ZF.
    + exists d'. change (runMods host (m :: m2 :: ms) f (zlen frs) cur (b :: bufs) final) with (do o <- runMem host m f (zlen frs) cur b; runMods host (m2 :: ms) (describe m f) (zlen frs) o bufs final).
      rewrite E1. cbn [rbind]. rewrite E5 in G1, G2. rewrite Ch' in G2, G4. cbn [stepsCh] in *. split; [exact G1|]. split; [exact G2|]. split; [exact G3|exact G4].
Qed.

(** ** The chain [arrange] builds *)
Definition isValue (m : module) : Prop := inTy m <> None.
Lemma Forall_when {A} (P : A -> Prop) b l : Forall P l -> Forall P (when b l).
Proof. destruct b; cbn; [auto|constructor]. Qed.
Lemma signed_valid c : validPCM (signedMapping c).
Proof. repeat split; apply dOfZ_valid. Qed.
Lemma shiftPCM_valid p z : validPCM p -> validD z = true -> validPCM (shiftPCM p z).
Proof. intros (A & B & C & D) H. repeat split; cbn; auto using dadd_valid. Qed.

Lemma core_facts wrapv uin uout infc outfc pin pout mtx core :
  arrangeCore wrapv uin uout infc outfc pin pout mtx = Ok core -> validPCM pin -> validPCM pout ->
  Forall isValue mtx -> Forall validModule mtx -> Forall isValue core /\ Forall validModule core.
Proof.
  intros H VI VO MV MM. unfold arrangeCore in H.
  set (A := match uin with true => _ | false => Ok pin end) in H.
  assert (HA : forall im, A = Ok im -> validPCM im).
  { unfold A. intros im. destruct uin, infc as [c| |]; try (intros E; assert (im = pin) as -> by congruence; exact VI).
    destruct (negShift wrapv (bits c)) as [z| | |]; try discriminate. cbn [rbind]. intros E. assert (im = shiftPCM pin (dOfZ z)) as -> by congruence. apply shiftPCM_valid; [exact VI|apply dOfZ_valid]. }
  clearbody A. destruct A as [im| | |]; try discriminate H. specialize (HA im eq_refl). cbn [rbind] in H. cbv zeta in H.
  set (om := match uout with true => _ | false => pout end) in H.
  assert (HO : validPCM om). { unfold om. destruct uout, outfc as [c| |]; auto. apply shiftPCM_valid; [exact VO|]. apply signed_valid. }
  clearbody om. set (tr := (_ || _) && negb (_ && _)) in H. clearbody tr.
  set (p5 := match infc with kI c => _ | _ => _ end) in H.
  assert (H5 : Forall isValue (fst p5) /\ Forall validModule (fst p5)). { unfold p5. destruct infc as [c| |], tr; cbn [fst]; split; repeat constructor; discriminate. }
  destruct p5 as [m5 infc2]. cbn [fst] in H5. destruct H5 as [H5 H5']. clearbody m5 infc2 || idtac.
  set (B := match infc2 with kI i => _ | _ => _ end) in H.
  assert (HB : forall m7, B = Ok m7 -> Forall isValue m7 /\ Forall validModule m7).
  { unfold B. intros m7. destruct infc2 as [i| |], outfc as [o| |]; try (intros E; injection E as <-; split; repeat constructor; try discriminate; assumption).
    - destruct (codenum i =? codenum o); [intros E; injection E as <-; split; constructor|]. destruct (negShift wrapv (bits o)) as [z| | |]; try discriminate. cbn [rbind]. intros E; injection E as <-; split; repeat constructor; discriminate.
    - intros E; injection E as <-; split; repeat constructor; try discriminate; try apply HA; apply HO.
    - intros E; injection E as <-; split; repeat constructor; try discriminate; try apply HA; apply HO. }
  clearbody B. destruct B as [m7| | |]; try discriminate H. destruct (HB m7 eq_refl) as [H7 H7']. cbn [rbind] in H.
  set (D := match uout with true => _ | false => Ok [] end) in H.
  assert (HD : forall m11, D = Ok m11 -> Forall isValue m11 /\ Forall validModule m11).
  { unfold D. intros m11. destruct uout, outfc as [c| |]; try (intros E; injection E as <-; split; constructor). destruct (negShift wrapv (bits c)) as [z| | |]; try discriminate. cbn [rbind]. intros E; injection E as <-; split; repeat constructor; discriminate. }
  clearbody D. destruct D as [m11| | |]; try discriminate H. destruct (HD m11 eq_refl) as [H11 H11']. cbn [rbind] in H. match type of H with Ok ?l = _ => assert (core = l) as -> by congruence end.
  split; repeat (apply Forall_app; split).
  all: try assumption; try (apply Forall_when; constructor; [first [discriminate | exact I | exact HA | exact HO | exact (conj HA HO)]|constructor]).
  all: destruct uin, infc; try constructor; try constructor; discriminate || exact I.
Qed.

(** ** The chain of [arrange], layout by layout *)
Lemma value_in m t t' : isValue m -> stepTy m t = Some t' -> inTy m = Some t.
Proof.
  unfold isValue. intros V S. destruct m as [| | |c fs|c p|c dbl|dbl i o|i o|dbl o i p|td|c r]; cbn [inTy stepTy] in *; try congruence.
  - destruct fs, t as [c'|c'| |]; try discriminate S; (destruct (codenum c =? codenum c') eqn:E; [|discriminate]); apply codenum_eqb in E; congruence.
  - destruct c as [c| |], t as [c'|c'| |]; try discriminate S; try reflexivity; destruct (codenum c =? codenum c') eqn:E; try discriminate; apply codenum_eqb in E; cbn; congruence.
  - destruct t as [c'|c'| |]; try discriminate S. destruct (codenum c =? codenum c') eqn:E; [|discriminate]. apply codenum_eqb in E; congruence.
  - destruct dbl, t; try discriminate S; reflexivity.
  - destruct t as [c'|c'| |]; try discriminate S. destruct (codenum i =? codenum c') eqn:E; [|discriminate]. apply codenum_eqb in E; congruence.
  - destruct dbl, t; try discriminate S; reflexivity.
  - destruct td, t; try discriminate S; reflexivity.
  - destruct c as [c| |], t as [c'|c'| |]; try discriminate S; try reflexivity; destruct (codenum c =? codenum c') eqn:E; try discriminate; apply codenum_eqb in E; cbn; congruence.
Qed.
Lemma core_Steps host core : forall t t', Forall isValue core -> stepsTy core t = Some t' -> Steps host core t host (tysize t) true t' host (tysize t') true.
Proof.
  induction core as [|m core IH]; intros t t' V S; cbn [stepsTy] in S; [assert (t' = t) as -> by congruence; constructor|].
  apply Forall_cons_iff in V as [V1 V]. destruct (stepTy m t) as [t1|] eqn:E; [|discriminate]. econstructor; [|apply IH; eauto]. apply S_val; [eapply value_in; eauto|exact E].
Qed.
Definition is24 (t : ty) : bool := match t with TI kInt24 | TU kInt24 => true | _ => false end.
Lemma fmt_24 f t : fmtTy f = Some t -> isIntegerF f && (bytesPerSample false f =? 3) = is24 t /\ (is24 t = true -> t = if negb (isUnsigned f) then TI kInt24 else TU kInt24).
Proof.
  unfold fmtTy, getFormatCode, bytesPerSample, isUnsigned, isIntegerF. rewrite andb_false_r. destruct (sampleFormat f).
  - set (q := Z.quot (sampleWidth f + 7) 8). intros H. destruct q as [|[[[| |]|[| |]|]|[[| |]|[| |]|]|]|]; try discriminate H; injection H as <-; (split; [reflexivity|]); intros E; try discriminate E; reflexivity.
  - set (q := Z.quot (sampleWidth f + 7) 8). intros H. destruct q as [|[[[| |]|[| |]|]|[[| |]|[| |]|]|]|]; try discriminate H; injection H as <-; (split; [reflexivity|]); intros E; try discriminate E; reflexivity.
  - intros H. injection H as <-. split; [reflexivity|discriminate].
  - intros H. injection H as <-. split; [reflexivity|discriminate].
Qed.
Lemma is24_sizes t : if is24 t then packedSize t = 3%nat /\ tysize t = 4%nat else packedSize t = tysize t.
Proof. destruct t as [[]|[]| |]; cbn; auto. Qed.
(** The order of single bytes does not matter. *)
Lemma exactly_one o o' t ss d : packedSize t = 1%nat -> exactly o t 1 ss d -> exactly o' t 1 ss d.
Proof.
  intros P (cells & -> & C & E). exists cells. split; [reflexivity|]. split; [exact C|]. rewrite <- E. apply map_ext_in. intros c Hc. unfold isCells in C. rewrite Forall_forall in C. destruct (C c Hc) as [L _].
  destruct c as [|b [|]]; try discriminate L. destruct t as [c|c| |]; try discriminate P; cbn [dec]; destruct o, o'; reflexivity.
Qed.
Definition sameOrder (t : ty) (o o' : order) : Prop := o = o' \/ packedSize t = 1%nat.

Lemma arrange_parts wrapv host rd fin fout matrix ms t t' :
  fmtTy fin = Some t -> fmtTy fout = Some t' -> arrange wrapv host rd fin fout matrix = Ok (Some ms) -> validPCM (pcm fin) -> validPCM (pcm fout) ->
  (match matrix with Some m => Forall (Forall (fun x => validD x = true)) m | None => True end) ->
  exists core, Forall isValue core /\ stepsTy core t = Some t' /\ Forall validModule ms /\
    let ne a b := match a, b with BigEndian, LittleEndian | LittleEndian, BigEndian => true | _, _ => false end in
    ms = when (ne (byteOrder fin) host && (1 <? bytesPerSample (negb rd) fin) && negb (compressed fin)) [MSwap] ++
         when (is24 t && (rd || compressed fin)) [MExpand3 (negb (isUnsigned fin))] ++ core ++
         when (is24 t' && (negb rd || compressed fout)) [MCompress3 (negb (isUnsigned fout))] ++
         when (ne (byteOrder fout) host && (1 <? bytesPerSample rd fout) && negb (compressed fout)) [MSwap].
Proof.
  intros F1 F2 A V1 V2 VM. destruct (arrange_ty _ _ _ _ _ _ _ _ _ F1 F2 A) as [ST _]. unfold arrange in A.
  destruct (getFormatCode fin) as [infc|]; [|discriminate]. destruct (getFormatCode fout) as [outfc|]; [|discriminate]. cbv zeta in A.
  destruct (fmt_24 _ _ F1) as [I1 _]. destruct (fmt_24 _ _ F2) as [I2 _]. rewrite I1, I2 in A.
  set (w1 := _ && negb (compressed fin)) in *. set (w2 := is24 t && _) in *. set (w12 := is24 t' && _) in *. set (w13 := _ && negb (compressed fout)) in *.
  set (mtx := when _ [MMatrix _ _]) in A.
  assert (MV : Forall isValue mtx /\ Forall validModule mtx).
  { unfold mtx. split; apply Forall_when; repeat constructor; [discriminate|]. cbn [validModule]. unfold matrixRows. destruct matrix as [m|].
    - destruct rd; [exact VM|]. unfold transpose_for_writing. apply Forall_map, Forall_forall. intros j _. apply Forall_map, Forall_forall. intros i _.
      match goal with |- validD (nth ?a (nth ?b m []) ?z) = true => destruct (nth_in_or_default b m []) as [IN|EQ] end.
      + rewrite Forall_forall in VM. specialize (VM _ IN). match goal with |- validD (nth ?a ?r ?z) = true => destruct (nth_in_or_default a r z) as [IN2|EQ2] end; [rewrite Forall_forall in VM; apply VM; exact IN2|rewrite EQ2; apply dOfZ_valid].
      + rewrite EQ. match goal with |- validD (nth ?a [] ?z) = true => destruct a; apply dOfZ_valid end.
    - apply Forall_map, Forall_forall. intros r _. apply Forall_map, Forall_forall. intros h _. apply dldexp_valid, dOfZ_valid. }
  clearbody mtx. destruct (arrangeCore _ _ _ _ _ _ _ _) as [core| | |] eqn:EC; try discriminate A. cbn [rbind] in A.
  match type of A with Ok (Some ?l) = _ => assert (ms = l) as -> by congruence end. clear A.
  destruct (core_facts _ _ _ _ _ _ _ _ _ EC V1 V2 (proj1 MV) (proj2 MV)) as [CV CM]. exists core. split; [exact CV|]. split.
  - rewrite stepsTy_app, (stepsTy_when _ _ t) in ST by reflexivity. rewrite stepsTy_app, (stepsTy_when _ _ t) in ST by reflexivity. rewrite stepsTy_app in ST. destruct (stepsTy core t) as [t1|]; [|discriminate]. rewrite stepsTy_app, !(stepsTy_when _ _ t1) in ST by reflexivity. exact ST.
  - split; [|reflexivity]. repeat (apply Forall_app; split); try exact CM; apply Forall_when; repeat constructor.
Qed.

Lemma ne_flip (a b : order) : (match a, b with BigEndian, LittleEndian | LittleEndian, BigEndian => true | _, _ => false end) = true -> flip a = b /\ flip b = a.
Proof. destruct a, b; cbn; intros; try discriminate; auto. Qed.
Lemma ne_same (a b : order) : (match a, b with BigEndian, LittleEndian | LittleEndian, BigEndian => true | _, _ => false end) = false -> a = b.
Proof. destruct a, b; cbn; intros; try discriminate; auto. Qed.
(** A swap module exactly when the order is not the host's. *)
Lemma swap_in host t o (w : bool) k x : packedSize t = k -> w = (match o, host with BigEndian, LittleEndian | LittleEndian, BigEndian => true | _, _ => false end) && (1 <? Z.of_nat k) ->
  exists o0, sameOrder t o0 o /\ Steps host (when w [MSwap]) t o0 k x t host k x.
Proof.
  intros <- ->. set (ne := match o with BigEndian => _ | _ => _ end). destruct (1 <? Z.of_nat (packedSize t)) eqn:P.
  - exists o. split; [left; reflexivity|]. destruct ne eqn:N; cbn [andb when].
    + destruct (ne_flip o host N) as [<- _]. econstructor; [|constructor]. apply S_swap. lia.
    + rewrite (ne_same o host N). constructor.
  - exists host. split; [right; destruct t as [[]|[]| |]; cbn in *; lia|]. rewrite andb_false_r. constructor.
Qed.
Lemma swap_out host t o (w : bool) k x : packedSize t = k -> w = (match o, host with BigEndian, LittleEndian | LittleEndian, BigEndian => true | _, _ => false end) && (1 <? Z.of_nat k) ->
  exists o0, sameOrder t o0 o /\ Steps host (when w [MSwap]) t host k x t o0 k x.
Proof.
  intros <- ->. set (ne := match o with BigEndian => _ | _ => _ end). destruct (1 <? Z.of_nat (packedSize t)) eqn:P.
  - exists o. split; [left; reflexivity|]. destruct ne eqn:N; cbn [andb when].
    + destruct (ne_flip o host N) as [_ <-]. econstructor; [|constructor]. apply S_swap. lia.
    + rewrite (ne_same o host N). constructor.
  - exists host. split; [right; destruct t as [[]|[]| |]; cbn in *; lia|]. rewrite andb_false_r. constructor.
Qed.

(** On reading: from the file's layout to the caller's. *)
Lemma arrange_steps_read wrapv host f v matrix ms t t' :
  fmtTy f = Some t -> fmtTy v = Some t' -> arrange wrapv host true f v matrix = Ok (Some ms) -> validPCM (pcm f) -> validPCM (pcm v) ->
  (match matrix with Some m => Forall (Forall (fun x => validD x = true)) m | None => True end) ->
  compressed v = false -> (is24 t' = true -> byteOrder v = host) ->
  Forall validModule ms /\ exists o o', sameOrder t o (byteOrder (fileDescribe host f)) /\ sameOrder t' o' (byteOrder v) /\ Steps host ms t o (packedSize t) true t' o' (tysize t') true.
Proof.
  intros F1 F2 A V1 V2 VM CV B24. destruct (arrange_parts _ _ _ _ _ _ _ _ _ F1 F2 A V1 V2 VM) as (core & IV & ST & MV & E). cbv zeta in E. split; [exact MV|]. clear A.
  cbn [negb orb] in E. rewrite CV in E. cbn [negb orb] in E. rewrite andb_true_r, andb_false_r, andb_true_r in E. cbn [when app] in E.
  destruct (fmt_bps _ _ F1) as [BF _]. destruct (fmt_bps _ _ F2) as [_ BT]. rewrite BF, (BT CV) in E.
  (* order of the file *)
  assert (S1 : exists o, sameOrder t o (byteOrder (fileDescribe host f)) /\
     Steps host (when ((match byteOrder f, host with BigEndian, LittleEndian | LittleEndian, BigEndian => true | _, _ => false end) && (1 <? Z.of_nat (packedSize t)) && negb (compressed f)) [MSwap]) t o (packedSize t) true t host (packedSize t) true).
  { unfold fileDescribe. destruct (compressed f) eqn:C; cbn [byteOrder negb].
    - exists host. split; [left; reflexivity|]. rewrite andb_false_r. constructor.
    - rewrite andb_true_r. apply swap_in; reflexivity. }
  destruct S1 as (o & SO & S1).
  assert (S2 : Steps host (when (is24 t) [MExpand3 (negb (isUnsigned f))]) t host (packedSize t) true t host (tysize t) true).
  { pose proof (is24_sizes t) as Z4. destruct (fmt_24 _ _ F1) as [_ T4]. destruct (is24 t); cbn [when].
    - destruct Z4 as [-> ->]. econstructor; [|constructor]. apply S_expand. apply T4. reflexivity.
    - rewrite Z4. constructor. }
  assert (S3 := core_Steps host core t t' IV ST).
  assert (S4 : exists o', sameOrder t' o' (byteOrder v) /\ Steps host (when ((match byteOrder v, host with BigEndian, LittleEndian | LittleEndian, BigEndian => true | _, _ => false end) && (1 <? Z.of_nat (tysize t'))) [MSwap]) t' host (tysize t') true t' o' (tysize t') true).
  { pose proof (is24_sizes t') as Z4. destruct (is24 t') eqn:I4.
    - exists host. split; [left; symmetry; apply B24; reflexivity|]. rewrite B24 by reflexivity. destruct host; constructor.
    - apply swap_out; [exact Z4|reflexivity]. }
  destruct S4 as (o' & SO' & S4). exists o, o'. split; [exact SO|]. split; [exact SO'|]. rewrite E.
  eapply Steps_app; [exact S1|]. eapply Steps_app; [exact S2|]. eapply Steps_app; [exact S3|exact S4].
Qed.

(** On writing: from the caller's layout to the file's. *)
Lemma arrange_steps_write wrapv host v f matrix ms t t' :
  fmtTy v = Some t -> fmtTy f = Some t' -> arrange wrapv host false v f matrix = Ok (Some ms) -> validPCM (pcm v) -> validPCM (pcm f) ->
  (match matrix with Some m => Forall (Forall (fun x => validD x = true)) m | None => True end) ->
  compressed v = false -> (is24 t = true -> byteOrder v = host) ->
  Forall validModule ms /\ exists o o' x', sameOrder t o (byteOrder v) /\ sameOrder t' o' (byteOrder (fileDescribe host f)) /\ Steps host ms t o (tysize t) true t' o' (packedSize t') x'.
Proof.
  intros F1 F2 A V1 V2 VM CV B24. destruct (arrange_parts _ _ _ _ _ _ _ _ _ F1 F2 A V1 V2 VM) as (core & IV & ST & MV & E). cbv zeta in E. split; [exact MV|]. clear A.
  cbn [negb orb] in E. rewrite CV in E. cbn [negb orb] in E. rewrite andb_false_r, !andb_true_r in E. cbn [when app] in E.
  destruct (fmt_bps _ _ F1) as [_ BT]. destruct (fmt_bps _ _ F2) as [BF _]. rewrite BF, (BT CV) in E.
  assert (S1 : exists o, sameOrder t o (byteOrder v) /\ Steps host (when ((match byteOrder v, host with BigEndian, LittleEndian | LittleEndian, BigEndian => true | _, _ => false end) && (1 <? Z.of_nat (tysize t))) [MSwap]) t o (tysize t) true t host (tysize t) true).
  { pose proof (is24_sizes t) as Z4. destruct (is24 t) eqn:I4.
    - exists host. split; [left; symmetry; apply B24; reflexivity|]. rewrite B24 by reflexivity. destruct host; constructor.
    - apply swap_in; [exact Z4|reflexivity]. }
  destruct S1 as (o & SO & S1). assert (S3 := core_Steps host core t t' IV ST).
  assert (S4 : exists x', Steps host (when (is24 t') [MCompress3 (negb (isUnsigned f))]) t' host (tysize t') true t' host (packedSize t') x').
  { pose proof (is24_sizes t') as Z4. destruct (fmt_24 _ _ F2) as [_ T4]. destruct (is24 t'); cbn [when].
    - destruct Z4 as [-> ->]. exists false. econstructor; [|constructor]. apply S_compress. apply T4. reflexivity.
    - rewrite Z4. exists true. constructor. }
  destruct S4 as (x' & S4).
  assert (S5 : exists o', sameOrder t' o' (byteOrder (fileDescribe host f)) /\
     Steps host (when ((match byteOrder f, host with BigEndian, LittleEndian | LittleEndian, BigEndian => true | _, _ => false end) && (1 <? Z.of_nat (packedSize t')) && negb (compressed f)) [MSwap]) t' host (packedSize t') x' t' o' (packedSize t') x').
  { unfold fileDescribe. destruct (compressed f) eqn:C; cbn [byteOrder negb].
    - exists host. split; [left; reflexivity|]. rewrite andb_false_r. constructor.
    - rewrite andb_true_r. apply swap_out; reflexivity. }
  destruct S5 as (o' & SO' & S5). exists o, o', x'. split; [exact SO|]. split; [exact SO'|]. rewrite E.
  eapply Steps_app; [exact S1|]. eapply Steps_app; [exact S3|]. eapply Steps_app; [exact S4|exact S5].
Qed.

(** ** The formats of the chunks *)
Definition rowsAre (n : Z) (m : module) : Prop := match m with MMatrix _ rows => zlen rows = n | _ => True end.
Lemma core_rows wrapv uin uout infc outfc pin pout mtx core n :
  arrangeCore wrapv uin uout infc outfc pin pout mtx = Ok core -> Forall (rowsAre n) mtx -> Forall (rowsAre n) core.
Proof.
  intros H MM. unfold arrangeCore in H.
  match type of H with rbind ?A _ = _ => destruct A as [im| | |]; try discriminate H end. cbn [rbind] in H. cbv zeta in H.
  set (om := match uout with true => _ | false => pout end) in H. clearbody om. set (tr := (_ || _) && negb (_ && _)) in H. clearbody tr.
  set (p5 := match infc with kI c => _ | _ => _ end) in H.
  assert (H5 : Forall (rowsAre n) (fst p5)). { unfold p5. destruct infc as [c| |], tr; cbn [fst]; repeat constructor. }
  destruct p5 as [m5 infc2]. cbn [fst] in H5.
  set (B := match infc2 with kI i => _ | _ => _ end) in H.
  assert (HB : forall m7, B = Ok m7 -> Forall (rowsAre n) m7).
  { unfold B. intros m7. destruct infc2 as [i| |], outfc as [o| |]; try (intros E; injection E as <-; repeat constructor).
    destruct (codenum i =? codenum o); [intros E; injection E as <-; constructor|]. destruct (negShift wrapv (bits o)) as [z| | |]; try discriminate. cbn [rbind]. intros E; injection E as <-; repeat constructor. }
  clearbody B. destruct B as [m7| | |]; try discriminate H. specialize (HB m7 eq_refl). cbn [rbind] in H.
  set (D := match uout with true => _ | false => Ok [] end) in H.
  assert (HD : forall m11, D = Ok m11 -> Forall (rowsAre n) m11).
  { unfold D. intros m11. destruct uout, outfc as [c| |]; try (intros E; injection E as <-; constructor). destruct (negShift wrapv (bits c)) as [z| | |]; try discriminate. cbn [rbind]. intros E; injection E as <-; repeat constructor. }
  clearbody D. destruct D as [m11| | |]; try discriminate H. specialize (HD m11 eq_refl). cbn [rbind] in H. match type of H with Ok ?l = _ => assert (core = l) as -> by congruence end.
  repeat (apply Forall_app; split); try assumption; try (apply Forall_when; repeat constructor). destruct uin, infc; repeat constructor.
Qed.
Lemma arrange_rows wrapv host rd fin fout matrix ms : arrange wrapv host rd fin fout matrix = Ok (Some ms) ->
  Forall (rowsAre (zlen (matrixRows rd (channelCount fin) (channelCount fout) matrix))) ms.
Proof.
  intros A. unfold arrange in A. destruct (getFormatCode fin) as [infc|]; [|discriminate]. destruct (getFormatCode fout) as [outfc|]; [|discriminate]. cbv zeta in A.
  destruct (arrangeCore _ _ _ _ _ _ _ _) as [core| | |] eqn:EC; try discriminate A. cbn [rbind] in A.
  match type of A with Ok (Some ?l) = _ => assert (ms = l) as -> by congruence end.
  assert (C : Forall (rowsAre (zlen (matrixRows rd (channelCount fin) (channelCount fout) matrix))) core) by (eapply core_rows; [exact EC|]; apply Forall_when; repeat constructor).
  repeat (apply Forall_app; split); try exact C; apply Forall_when; repeat constructor.
Qed.
Lemma default_rows rd a b : 0 <= b -> zlen (matrixRows rd a b None) = b.
Proof.
  intros H. unfold matrixRows, zlen. rewrite map_length. assert (D : forall a b, length (default_matrix a b) = b).
  { intros x y. unfold default_matrix. repeat match goal with |- length (match ?x with _ => _ end) = _ => destruct x end; try reflexivity; unfold identity_rows; rewrite map_length, seq_length; reflexivity. }
  rewrite D. lia.
Qed.
Lemma last_any {A} (l : list A) x d d' : l <> [] -> last (x :: l) d = last l d'.
Proof. revert x. induction l as [|y l IH]; intros x H; [congruence|]. destruct l as [|z l]; [reflexivity|]. change (last (x :: y :: z :: l) d) with (last (y :: z :: l) d). rewrite (IH y) by discriminate. reflexivity. Qed.
Lemma formats_facts ms : forall t t' f c2, stepsTy ms t = Some t' -> fmtTy f = Some t -> compressed f = false -> Forall (rowsAre c2) ms ->
  Forall (fun g => (exists u, fmtTy g = Some u) /\ compressed g = false /\ (channelCount g = channelCount f \/ channelCount g = c2)) (formats ms f) /\ channelCount (last (formats ms f) f) = stepsCh ms (channelCount f) /\
  fmtTy (last (formats ms f) f) = Some t' /\ compressed (last (formats ms f) f) = false.
Proof.
  induction ms as [|m ms IH]; intros t t' f c2 S F C R; cbn [stepsTy] in S.
  - assert (t' = t) as -> by congruence. cbn [formats last stepsCh]. repeat split; auto. constructor; [|constructor]. repeat split; eauto.
  - destruct (stepTy m t) as [t1|] eqn:E; [|discriminate]. apply Forall_cons_iff in R as [R1 R]. destruct (describe_facts m f t t1 F E) as (F' & C' & H').
    destruct (IH t1 t' (describe m f) c2 S F' ltac:(congruence) R) as (I1 & I2 & I3 & I4).
    assert (L : last (formats (m :: ms) f) f = last (formats ms (describe m f)) (describe m f)).
    { cbn [formats]. destruct (formats ms (describe m f)) as [|b l] eqn:EF; [destruct ms; discriminate EF|]. apply (last_any (b :: l) f f (describe m f)). discriminate. }
    rewrite L. cbn [stepsCh]. split; [|split; [rewrite I2, H'; reflexivity|split; assumption]].
    cbn [formats]. constructor; [repeat split; eauto|]. eapply Forall_impl; [|exact I1]. intros g (G1 & G2 & G3). split; [exact G1|]. split; [exact G2|]. destruct G3 as [-> | ->]; [|auto]. rewrite H'. destruct m; cbn [stepCh]; auto.
Qed.

(** The buffers hold 1024 frames of every chunk. *)
Lemma fold_max_ge l : forall a x, (x = a \/ In x l) -> x <= fold_left Z.max l a.
Proof. induction l as [|y l IH]; intros a x H; cbn [fold_left]; [destruct H as [-> |[]]; lia|]. destruct H as [-> |[-> |H]]; [pose proof (IH (Z.max a y) (Z.max a y) (or_introl eq_refl)); lia|pose proof (IH (Z.max a x) (Z.max a x) (or_introl eq_refl)); lia|apply IH; auto]. Qed.
Lemma bufSize_val n g u : fmtTy g = Some u -> compressed g = false -> 1 <= channelCount g -> 0 <= n -> n * (Z.of_nat (tysize u) * channelCount g) < 2 ^ 31 ->
  0 <= channelCount g < 2 ^ 31 -> bytesPerFrame true g = Z.of_nat (tysize u) * channelCount g /\ bufSize n g = n * (Z.of_nat (tysize u) * channelCount g).
Proof.
  intros F C C1 N H CC. destruct (fmt_bps _ _ F) as [_ B]. specialize (B C). pose proof (tysize_pos u) as TP. change (2 ^ 31) with 2147483648 in *.
  assert (E : bytesPerFrame true g = Z.of_nat (tysize u) * channelCount g).
  { unfold bytesPerFrame. rewrite B. rewrite (u64_small (channelCount g)) by (change (2 ^ 64) with 18446744073709551616; lia). apply u64_small. change (2 ^ 64) with 18446744073709551616. nia. }
  split; [exact E|]. unfold bufSize. rewrite E. rewrite u64_small by (change (2 ^ 64) with 18446744073709551616; split; [apply Z.mul_nonneg_nonneg; nia|lia]). apply s32_small. change (2 ^ 31) with 2147483648. split; [apply Z.mul_nonneg_nonneg; nia|lia].
Qed.
Lemma maxBufSize_fits ms t t' f c2 g1 packet own n : stepsTy ms t = Some t' -> fmtTy f = Some t -> compressed f = false -> Forall (rowsAre c2) ms ->
  1 <= channelCount f < 2 ^ 18 -> 1 <= c2 < 2 ^ 18 -> 0 <= n <= atomicFrames -> Forall (fitsIn n (maxBufSize (formats ms f) g1 packet own)) (formats ms f).
Proof.
  intros S F C R C1 C2 N. destruct (formats_facts ms t t' f c2 S F C R) as [FF _]. apply Forall_forall. intros g Hg. rewrite Forall_forall in FF. destruct (FF g Hg) as ((u & Fu) & Cu & Hc).
  change (2 ^ 18) with 262144 in *. unfold atomicFrames in *. assert (CG : 1 <= channelCount g < 262144) by (destruct Hc as [-> | ->]; lia). pose proof (tysize_pos u) as TP.
  assert (U : Z.of_nat (tysize u) * channelCount g <= 8 * channelCount g) by (apply Z.mul_le_mono_nonneg_r; lia).
  assert (H1 : 1024 * (Z.of_nat (tysize u) * channelCount g) < 2 ^ 31) by (change (2 ^ 31) with 2147483648; lia).
  assert (H2 : 0 <= channelCount g < 2 ^ 31) by (change (2 ^ 31) with 2147483648; lia).
  destruct (bufSize_val 1024 g u Fu Cu ltac:(lia) ltac:(lia) H1 H2) as [_ BS].
  destruct (fmt_bps _ _ Fu) as [_ B]. specialize (B Cu). unfold fitsIn. rewrite B. split; [|change (2 ^ 31) with 2147483648; nia].
  assert (M : bufSize 1024 g <= maxBufSize (formats ms f) g1 packet own).
  { unfold maxBufSize, atomicFrames. apply fold_max_ge. right. apply in_or_app. left. apply in_map. exact Hg. }
  rewrite BS in M. assert (n * (Z.of_nat (tysize u) * channelCount g) <= 1024 * (Z.of_nat (tysize u) * channelCount g)) by (apply Z.mul_le_mono_nonneg_r; nia). lia.
Qed.
