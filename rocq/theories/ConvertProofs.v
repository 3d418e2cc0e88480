(** Proofs about [Convert]. *)
From Verif Require Import Prelude PreludeFacts ByteOrder ByteOrderProofs Convert.

Lemma kMin_val c : kMinSignedValue c = - 2 ^ (bits c - 1).
Proof. destruct c; reflexivity. Qed.

Definition inSigned (c : intcode) (x : Z) : Prop := - 2 ^ (bits c - 1) <= x < 2 ^ (bits c - 1).
Definition inUnsigned (c : intcode) (x : Z) : Prop := 0 <= x < 2 ^ bits c.

Lemma ck32_ok x : - 2 ^ 31 <= x < 2 ^ 31 -> ck32 x = Ok x.
Proof. intros; unfold ck32. replace (inS 32 x) with true; auto. symmetry. apply inS_spec. auto. Qed.

Lemma stou c x : c <> kInt32 -> inSigned c x -> signedToUnsigned c x = Ok (x + 2 ^ (bits c - 1)).
Proof.
  intros Hc Hx. unfold signedToUnsigned. rewrite kMin_val. unfold inSigned in Hx.
  destruct c; try congruence; cbn [bits] in *; zpow;
    (rewrite ck32_ok by (zpow; lia)); cbn [rbind]; f_equal;
    unfold uN; cbn [cbits]; zpow; lia.
Qed.

Lemma utos c x : inUnsigned c x -> unsignedToSigned c x = x - 2 ^ (bits c - 1).
Proof.
  intros Hx. unfold unsignedToSigned. rewrite kMin_val. unfold inUnsigned in Hx.
  destruct c; cbn [bits cbits] in *; unfold sN, uN; zpow; lia.
Qed.

Lemma stou_32 x : inSigned kInt32 x -> x < 0 -> signedToUnsigned kInt32 x = Ok (x + 2 ^ 31).
Proof.
  intros Hx Hneg. unfold signedToUnsigned. rewrite kMin_val. unfold inSigned in Hx.
  cbn [bits] in Hx. change (2 ^ (bits kInt32 - 1)) with 2147483648. zpow.
  rewrite ck32_ok by (zpow; lia). unfold rbind, cbits. f_equal.
  unfold uN. zpow. rewrite Z.mod_small by lia. lia.
Qed.

Lemma stou_32_ub x : 0 <= x -> signedToUnsigned kInt32 x = UB.
Proof.
  intros Hx. unfold signedToUnsigned. rewrite kMin_val.
  change (2 ^ (bits kInt32 - 1)) with 2147483648.
  unfold ck32. replace (inS 32 (x - - (2147483648))) with false; auto.
  unfold inS. zpow. lia.
Qed.

(** 24-bit packing *)
Lemma pack24 c0 c1 c2 : 0 <= c0 < 256 -> 0 <= c1 < 256 -> 0 <= c2 < 256 ->
  Z.lor (Z.lor (Z.shiftl c2 24) (Z.shiftl c1 16)) (Z.shiftl c0 8) =
  256 * (c0 + 256 * (c1 + 256 * c2)).
Proof.
  intros. rewrite !Z.shiftl_mul_pow2 by lia.
  rewrite (lor_disjoint' (c1 * 2 ^ 16) c2 24) by (zpow; lia).
  replace (c1 * 2 ^ 16 + c2 * 2 ^ 24) with ((c1 + c2 * 2 ^ 8) * 2 ^ 16) by (zpow; lia).
  rewrite (lor_disjoint' (c0 * 2 ^ 8) _ 16) by (zpow; lia). zpow; lia.
Qed.

Lemma expand3_val host sg l : length l = 3%nat -> bytes_ok l = true ->
  expand3 host sg l = Ok (if sg then s24 (load host l) else load host l).
Proof.
  intros Hl Hb. destruct l as [|c0 [|c1 [|c2 [|]]]]; try discriminate.
  apply bytes_ok_spec in Hb.
  repeat match goal with H : Forall _ (_ :: _) |- _ => inversion H; clear H; subst end.
  unfold expand3. f_equal.
  assert (E : match host with
      | BigEndian => Z.lor (Z.lor (Z.shiftl c0 24) (Z.shiftl c1 16)) (Z.shiftl c2 8)
      | LittleEndian => Z.lor (Z.lor (Z.shiftl c2 24) (Z.shiftl c1 16)) (Z.shiftl c0 8)
      end = 256 * load host [c0; c1; c2] /\ 0 <= load host [c0; c1; c2] < 2 ^ 24).
  { destruct host; rewrite pack24 by auto; unfold load, be_val; cbn [rev app le_val]; zpow; lia. }
  destruct E as [-> Hr]. set (v := load host _) in *. clearbody v.
  rewrite Z.shiftr_div_pow2 by lia.
  destruct sg; unfold s32, s24, sN, u32, uN; zpow; lia.
Qed.

Lemma compress4_val host x : compress4 host x = store host 3 x.
Proof.
  unfold compress4, store, be_bytes. cbn [le_bytes rev app].
  change 255 with (Z.ones 8). rewrite !Z.land_ones by lia.
  rewrite !Z.shiftr_div_pow2 by lia. zpow.
  replace (x / 65536) with (x / 256 / 256) by lia. destruct host; reflexivity.
Qed.

Lemma load_store host n x : load host (store host n x) = x mod 2 ^ (8 * Z.of_nat n).
Proof. destruct host; cbn; [apply be_val_bytes | apply le_val_bytes]. Qed.
Lemma store_load host l : bytes_ok l = true -> store host (length l) (load host l) = l.
Proof. destruct host; cbn; [apply be_bytes_val | apply le_bytes_val]. Qed.
Lemma store_length host n x : length (store host n x) = n.
Proof. destruct host; cbn; [apply be_bytes_length | apply le_bytes_length]. Qed.
Lemma store_ok host n x : bytes_ok (store host n x) = true.
Proof. destruct host; cbn; [apply be_bytes_ok | apply le_bytes_ok]. Qed.
Lemma store_mod host n x y : x mod 2 ^ (8 * Z.of_nat n) = y mod 2 ^ (8 * Z.of_nat n) ->
  store host n x = store host n y.
Proof. intros H; destruct host; cbn; unfold be_bytes; now rewrite (le_bytes_mod n x y H). Qed.

Lemma compress_expand host sg l : length l = 3%nat -> bytes_ok l = true ->
  rmap (compress4 host) (expand3 host sg l) = Ok l.
Proof.
  intros Hl Hb. rewrite expand3_val by auto. unfold rmap; cbn [rbind]. f_equal.
  rewrite compress4_val. transitivity (store host (length l) (load host l)); [|now apply store_load].
  rewrite Hl. apply store_mod. destruct sg; [|reflexivity].
  unfold s24, sN. change (8 * Z.of_nat 3) with 24. zpow. lia.
Qed.

Lemma expand_compress host (sg : bool) x :
  (if sg then inSigned kInt24 x else inUnsigned kInt24 x) ->
  expand3 host sg (compress4 host x) = Ok x.
Proof.
  intros Hx. rewrite compress4_val, expand3_val by auto using store_length, store_ok.
  f_equal. rewrite load_store. unfold inSigned, inUnsigned in Hx. cbn [bits] in Hx.
  destruct sg; unfold s24, sN; change (8 * Z.of_nat 3) with 24; zpow; lia.
Qed.

(** Integer width conversion *)
Lemma bits_code c : bits c = 8 * (codenum c + 1).
Proof. destruct c; reflexivity. Qed.

Lemma convertInt_widen i o x : codenum i <= codenum o -> inSigned i x ->
  convertInt i o x = Ok (x * 2 ^ (bits o - bits i)) /\ inSigned o (x * 2 ^ (bits o - bits i)).
Proof.
  intros Hio Hx. unfold convertInt, inSigned in *.
  replace (codenum i >? codenum o) with false by lia.
  rewrite Z.shiftl_mul_pow2 by lia.
  destruct i, o; cbn [codenum bits cbits] in *; try lia; zpow;
    (rewrite ck32_ok by (zpow; lia)); cbn [rbind];
    (split; [f_equal; apply sN_small; zpow; lia|lia]).
Qed.

Lemma convertInt_narrow i o x : codenum o < codenum i -> inSigned i x ->
  convertInt i o x = Ok (x / 2 ^ (bits i - bits o)) /\ inSigned o (x / 2 ^ (bits i - bits o)).
Proof.
  intros Hio Hx. unfold convertInt, inSigned in *.
  replace (codenum i >? codenum o) with true by lia.
  rewrite Z.shiftr_div_pow2 by lia.
  destruct i, o; cbn [codenum bits cbits] in *; try lia; zpow;
    (split; [f_equal; apply sN_small; zpow; lia|lia]).
Qed.

Lemma convertInt_total i o x : inSigned i x ->
  exists y, convertInt i o x = Ok y /\ inSigned o y.
Proof.
  intros Hx. destruct (Z_lt_le_dec (codenum o) (codenum i)).
  - eexists; apply convertInt_narrow; auto.
  - eexists; apply convertInt_widen; auto.
Qed.

Lemma convertInt_widen_narrow i o x : codenum i <= codenum o -> inSigned i x ->
  rbind (convertInt i o x) (convertInt o i) = Ok x.
Proof.
  intros Hio Hx. destruct (convertInt_widen i o x Hio Hx) as [-> Hy]. cbn [rbind].
  destruct (Z_lt_le_dec (codenum i) (codenum o)).
  - destruct (convertInt_narrow o i _ l Hy) as [-> _]. f_equal.
    apply Z.div_mul. apply Z.pow_nonzero; [lia|]. rewrite !bits_code; lia.
  - assert (i = o) by (destruct i, o; cbn in *; try lia; auto). subst o.
    destruct (convertInt_widen i i _ ltac:(lia) Hy) as [-> _]. f_equal.
    replace (bits i - bits i) with 0 by lia. change (2 ^ 0) with 1. lia.
Qed.

Lemma convertInt_mono i o x y x' y' : inSigned i x -> inSigned i y -> x <= y ->
  convertInt i o x = Ok x' -> convertInt i o y = Ok y' -> x' <= y'.
Proof.
  intros Hx Hy Hxy Ex Ey. destruct (Z_lt_le_dec (codenum o) (codenum i)).
  - rewrite (proj1 (convertInt_narrow i o x l Hx)) in Ex.
    rewrite (proj1 (convertInt_narrow i o y l Hy)) in Ey.
    inversion Ex; inversion Ey; subst. apply Z.div_le_mono; [|lia].
    apply Z.pow_pos_nonneg; rewrite ?bits_code; lia.
  - rewrite (proj1 (convertInt_widen i o x l Hx)) in Ex.
    rewrite (proj1 (convertInt_widen i o y l Hy)) in Ey.
    inversion Ex; inversion Ey; subst.
    assert (0 < 2 ^ (bits o - bits i)) by (apply Z.pow_pos_nonneg; rewrite ?bits_code; lia). nia.
Qed.

Lemma convertInt_compose i m o x : codenum i <= codenum m -> codenum m <= codenum o -> inSigned i x ->
  rbind (convertInt i m x) (convertInt m o) = convertInt i o x.
Proof.
  intros H1 H2 Hx. destruct (convertInt_widen i m x H1 Hx) as [-> Hy]. cbn [rbind].
  rewrite (proj1 (convertInt_widen m o _ H2 Hy)).
  rewrite (proj1 (convertInt_widen i o x ltac:(lia) Hx)). f_equal.
  rewrite <- Z.mul_assoc. f_equal. rewrite <- Z.pow_add_r by (rewrite !bits_code; lia).
  f_equal; lia.
Qed.

(** Clip *)
Lemma clip_range lo hi x : lo <= hi -> lo <= clipInt lo hi x <= hi.
Proof. unfold clipInt; lia. Qed.
Lemma clip_inside lo hi x : lo <= x <= hi -> clipInt lo hi x = x.
Proof. unfold clipInt; lia. Qed.
Lemma clip_idem lo hi x : clipInt lo hi (clipInt lo hi x) = clipInt lo hi x.
Proof. unfold clipInt; lia. Qed.
Lemma clip_mono lo hi x y : x <= y -> clipInt lo hi x <= clipInt lo hi y.
Proof. unfold clipInt; lia. Qed.

(** Channel matrix: generic facts *)
Section MatrixFacts.
  Context {T D : Type}.
  Variables (ofT : T -> D) (toT : D -> res T) (mul add : D -> D -> D) (zero : D).

  Lemma matrix_run_app rows fs gs :
    matrix_run ofT toT mul add zero rows (fs ++ gs) =
    (do a <- matrix_run ofT toT mul add zero rows fs;
     do b <- matrix_run ofT toT mul add zero rows gs; Ok (a ++ b)).
  Proof.
    unfold matrix_run. induction fs as [|f fs IH]; cbn [app rmapM rbind].
    - destruct (rmapM _ gs); reflexivity.
    - destruct (matrix_frame ofT toT mul add zero rows f); cbn [rbind]; auto.
      rewrite IH. destruct (rmapM _ fs); cbn [rbind]; auto. destruct (rmapM _ gs); reflexivity.
  Qed.

  Lemma matrix_run_nth rows fs gs :
    matrix_run ofT toT mul add zero rows fs = Ok gs ->
    length gs = length fs /\
    forall k f, nth_error fs k = Some f ->
      exists g, nth_error gs k = Some g /\ matrix_frame ofT toT mul add zero rows f = Ok g.
  Proof.
    unfold matrix_run. revert gs; induction fs as [|f fs IH]; cbn [rmapM]; intros gs H.
    - inversion H; subst; split; auto. intros [|k] ? ?; discriminate.
    - apply rbind_Ok in H as (g & Hg & H). apply rbind_Ok in H as (gs' & Hgs & H).
      inversion H; subst. destruct (IH _ Hgs) as [Hl Hn]. split; [cbn; congruence|].
      intros [|k] f' Hf; cbn in Hf |- *; [inversion Hf; subst; eauto|eauto].
  Qed.
End MatrixFacts.

(** [dot] over Z as an explicit sum. *)
Fixpoint zsum (l : list Z) : Z := match l with [] => 0 | x :: l' => x + zsum l' end.
Fixpoint zdot (row frame : list Z) : Z :=
  match row, frame with m :: r, x :: f => m * x + zdot r f | _, _ => 0 end.
Lemma dot_zdot row frame acc : dot (fun x : Z => x) Z.mul Z.add row frame acc = acc + zdot row frame.
Proof.
  revert frame acc; induction row as [|m row IH]; intros [|x frame] acc; cbn; try lia.
  rewrite IH. lia.
Qed.

Lemma mix_frame w rows frame :
  matrix_frame (fun x : Z => x) (store_half w) Z.mul Z.add 0 rows frame =
  rmapM (fun row => store_half w (zdot row frame)) rows.
Proof.
  unfold matrix_frame. induction rows as [|r rows IH]; cbn [rmapM]; auto.
  rewrite dot_zdot, Z.add_0_l, IH. reflexivity.
Qed.

Lemma store_half_even w t : inS w t = true -> store_half w (2 * t) = Ok t.
Proof.
  intros H. unfold store_half. rewrite Z.mul_comm, Z.quot_mul by lia. now rewrite H.
Qed.

Lemma zdot_zero n frame : zdot (repeat 0 n) frame = 0.
Proof. revert frame; induction n; intros [|x f]; cbn; auto. Qed.

Lemma zdot_unit a j n frame : (a <= j < a + n)%nat -> length frame = n ->
  zdot (map (fun i => if (i =? j)%nat then 2 else 0) (seq a n)) frame =
  2 * nth (j - a) frame 0.
Proof.
  revert a frame; induction n as [|n IH]; intros a frame Hj Hl; [lia|].
  destruct frame as [|x frame]; [discriminate|]. cbn [seq map zdot].
  destruct (Nat.eqb_spec a j).
  - subst j. rewrite Nat.sub_diag. cbn [nth].
    assert (E : map (fun i => if (i =? a)%nat then 2 else 0) (seq (S a) n) = repeat 0 n).
    { clear. assert (G : forall b, (a < b)%nat -> map (fun i => if (i =? a)%nat then 2 else 0) (seq b n) = repeat 0 n).
      { induction n; intros b Hb; cbn; auto. destruct (Nat.eqb_spec b a); [lia|].
        f_equal. apply IHn; lia. }
      apply G; lia. }
    rewrite E, zdot_zero. lia.
  - rewrite IH by (cbn in Hl; lia).
    replace (j - a)%nat with (S (j - S a)) by lia. cbn [nth]. lia.
Qed.

Lemma rmapM_map_seq {B} (f : nat -> res B) (g : nat -> B) l :
  (forall j, In j l -> f j = Ok (g j)) -> rmapM f l = Ok (map g l).
Proof. apply rmapM_Ok_map. Qed.

Lemma rmapM_map {A B C} (h : A -> B) (f : B -> res C) l : rmapM f (map h l) = rmapM (fun a => f (h a)) l.
Proof. induction l as [|a l IH]; cbn; auto. now rewrite IH. Qed.

Lemma map_nth_seq {A} (d : A) l a : map (fun j => nth (j - a) l d) (seq a (length l)) = l.
Proof.
  revert a; induction l as [|x l IH]; intros a; cbn [length seq map]; auto.
  rewrite Nat.sub_diag. cbn [nth]. f_equal. rewrite <- (IH (S a)) at 2.
  apply map_ext_in. intros j Hj. apply in_seq in Hj.
  replace (j - a)%nat with (S (j - S a)) by lia. reflexivity.
Qed.

Lemma mix_identity w frame :
  Forall (fun x => inS w x = true) frame ->
  rmapM (fun row => store_half w (zdot row frame)) (identity_rows (length frame) (length frame)) = Ok frame.
Proof.
  intros H. unfold identity_rows. rewrite rmapM_map.
  rewrite (rmapM_Ok_map _ (fun j => nth (j - 0) frame 0)).
  - now rewrite map_nth_seq.
  - intros j Hj. apply in_seq in Hj. rewrite zdot_unit by lia.
    apply store_half_even. rewrite Forall_forall in H. apply H, nth_In. lia.
Qed.

Lemma rmapM_all {A} (f : A -> res A) l : (forall x, In x l -> f x = Ok x) -> rmapM f l = Ok l.
Proof. intros H. rewrite (rmapM_Ok_map f (fun x => x)); auto. now rewrite map_id. Qed.

Lemma zdot_off a j n frame : ~ (a <= j < a + n)%nat -> zdot (map (fun i => if (i =? j)%nat then 2 else 0) (seq a n)) frame = 0.
Proof.
  revert a frame; induction n as [|n IH]; intros a frame Hj; [reflexivity|].
  destruct frame as [|x frame]; [reflexivity|]. cbn [seq map zdot].
  destruct (Nat.eqb_spec a j); [lia|]. rewrite IH by lia. lia.
Qed.

Lemma store_half_range w t t' : store_half w t = Ok t' -> inS w t' = true.
Proof. unfold store_half. destruct (inS w (Z.quot t 2)) eqn:E; intros H; inversion H; subst; auto. Qed.

Lemma mix_rows_ok w rows frame :
  (forall row, In row rows -> exists t, store_half w (zdot row frame) = Ok t) ->
  exists out, rmapM (fun row => store_half w (zdot row frame)) rows = Ok out /\
    length out = length rows /\ Forall (fun x => inS w x = true) out.
Proof.
  induction rows as [|r rows IH]; intros H.
  - exists []. repeat split; auto.
  - destruct (H r (or_introl eq_refl)) as [t Ht]. destruct IH as (out & Ho & Hl & Hf).
    { intros row Hrow. apply H. now right. }
    exists (t :: out). cbn [rmapM]. rewrite Ht. cbn [rbind]. rewrite Ho. cbn [rbind length].
    repeat split; auto. constructor; eauto using store_half_range.
Qed.

Lemma inS_0 w : 0 < w -> inS w 0 = true.
Proof. intros. apply inS_spec. assert (0 < 2 ^ (w - 1)) by (apply Z.pow_pos_nonneg; lia). lia. Qed.

Lemma identity_rows_length a b : length (identity_rows a b) = b.
Proof. unfold identity_rows. now rewrite map_length, seq_length. Qed.

Lemma half_sum w l r : inS w l = true -> inS w r = true -> inS w (Z.quot (l + r) 2) = true.
Proof.
  rewrite !inS_spec. set (p := 2 ^ (w - 1)). clearbody p. intros Hl Hr.
  pose proof (Z.quot_rem (l + r) 2 ltac:(lia)).
  destruct (Z_le_gt_dec 0 (l + r)).
  - pose proof (Z.rem_bound_pos (l + r) 2 ltac:(lia) ltac:(lia)).
    set (q := Z.quot (l + r) 2) in *. set (m := Z.rem (l + r) 2) in *. clearbody q m. lia.
  - pose proof (Z.rem_bound_pos_neg (l + r) 2 ltac:(lia) ltac:(lia)).
    set (q := Z.quot (l + r) 2) in *. set (m := Z.rem (l + r) 2) in *. clearbody q m. lia.
Qed.

Lemma mix_in_range w inC outC frame : 0 < w -> length frame = inC ->
  ~ (inC = 4%nat /\ (outC = 1%nat \/ outC = 2%nat)) ->
  Forall (fun x => inS w x = true) frame ->
  exists out, mix_int w (default_matrix inC outC) [frame] = Ok [out] /\ length out = outC /\
              Forall (fun x => inS w x = true) out.
Proof.
  intros Hw Hl Hn Hf.
  assert (G : forall rows, length rows = outC ->
    (forall row, In row rows -> exists t, store_half w (zdot row frame) = Ok t) ->
    exists out, mix_int w rows [frame] = Ok [out] /\ length out = outC /\ Forall (fun x => inS w x = true) out).
  { intros rows Hr Hrow. destruct (mix_rows_ok w rows frame Hrow) as (out & Ho & Hlen & Hfo).
    exists out. unfold mix_int, matrix_run. cbn [rmapM]. rewrite mix_frame, Ho. cbn [rbind].
    repeat split; auto; congruence. }
  assert (H0 : exists t, store_half w 0 = Ok t) by (exists 0; apply (store_half_even w 0), inS_0; auto).
  assert (GI : default_matrix inC outC = identity_rows inC outC ->
    exists out, mix_int w (default_matrix inC outC) [frame] = Ok [out] /\ length out = outC /\
                Forall (fun x => inS w x = true) out).
  { intros E. rewrite E. apply G; [apply identity_rows_length|].
    intros row Hrow. unfold identity_rows in Hrow. apply in_map_iff in Hrow as (j & <- & Hj).
    destruct (Nat.lt_ge_cases j inC).
    - rewrite zdot_unit by lia. eexists. apply store_half_even. rewrite Forall_forall in Hf. apply Hf, nth_In. lia.
    - rewrite zdot_off by lia. exact H0. }
  assert (H2 : forall x, inS w x = true -> exists t, store_half w (2 * x) = Ok t)
    by (intros; eexists; apply store_half_even; auto).
  destruct inC as [|[|[|[|[|]]]]]; destruct outC as [|[|[|[|[|]]]]];
    try (apply GI; reflexivity); try (exfalso; apply Hn; auto; fail);
    (apply G; [reflexivity|]); intros row Hrow; cbn [default_matrix In] in Hrow;
    repeat (destruct frame as [|? frame]; try discriminate);
    repeat match goal with H : Forall _ (_ :: _) |- _ => inversion H; clear H; subst end;
    (repeat destruct Hrow as [<-|Hrow]; try contradiction); cbn [zdot];
    try (match goal with |- context [store_half w ?e] => 
           first [ replace e with 0 by lia; exact H0
                 | match goal with x : Z |- _ => replace e with (2 * x) by lia; apply H2; assumption end ] end).
  match goal with |- context [1 * ?a + (1 * ?b + 0)] => replace (1 * a + (1 * b + 0)) with (a + b) by lia end.
  unfold store_half. rewrite half_sum by auto. eauto.
Qed.
