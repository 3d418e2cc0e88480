(** * An Apple Lossless packet is decoded to the samples it was made of *)
From Verif Require Import Prelude PreludeFacts MetadataProofs ALACBits ALACGolomb ALACGolombProofs ALACPredict ALACCodec.

(** ** Specification *)
Definition depthOk (depth : Z) : Prop := depth = 16 \/ depth = 20 \/ depth = 24 \/ depth = 32.
(** Bits of a sample in memory. *)
Definition container (depth : Z) : Z := if depth =? 20 then 24 else depth.
(** What a depth of 20 bits keeps of a sample that takes 24: the lower four bits are cleared. *)
Definition kept (depth x : Z) : Z := if depth =? 20 then 16 * (x / 16) else x.
(** The configuration the encoder puts into the magic cookie (ALACEncoder.cpp:1187-1200). *)
Definition cookie (frameSize depth : Z) : config := Config frameSize depth PB0 MB0 KB0.

(** ** Writing fields *)
Definition widthsOk (l : fields) : Prop := Forall (fun f => 0 <= fst f <= 32) l.
Lemma widthsOk_fields l : widthsOk l -> fieldsOk l.
Proof. intros H. unfold widthsOk, fieldsOk in *. eapply Forall_impl; [|exact H]. cbv beta. intros f Hf. lia. Qed.
Lemma widthsOk_app l1 l2 : widthsOk l1 -> widthsOk l2 -> widthsOk (l1 ++ l2).
Proof. intros A B. apply Forall_app. split; assumption. Qed.

Lemma wrote_over b p l1 b1 l2 b2 : wrote b p l1 b1 -> wrote b1 p l2 b2 -> wrote b p l2 b2.
Proof.
  intros (L1 & O1 & K1 & H1) (L2 & O2 & K2 & H2). split; [lia|]. split; [exact O2|]. split; [|exact H2].
  intros i Hi. rewrite K2 by exact Hi. apply K1. exact Hi.
Qed.
Lemma wrote_bytes b p l b' : wrote b p l b' -> bytes_ok b' = true. Proof. intros (_ & O & _). exact O. Qed.
Lemma wrote_len b p l b' : wrote b p l b' -> zlen b' = zlen b. Proof. intros (L & _). exact L. Qed.

Lemma bbWrites_inv l : forall b p b', widthsOk l -> bytes_ok b = true -> 0 <= p -> bbWrites b p l = Ok b' -> wrote b p l b'.
Proof.
  induction l as [|[n v] l IH]; intros b p b' Hw Hb Hp H; cbn [bbWrites] in H.
  - injection H as <-. apply wrote_nil. exact Hb.
  - apply rbind_Ok in H. destruct H as (b1 & H1 & H). inversion Hw as [|f l0 Hn Hl]; subst. cbn [fst] in Hn.
    apply bbWrite_inv in H1; [|assumption|assumption|exact Hn]. apply IH in H; [|exact Hl|exact (wrote_bytes _ _ _ _ H1)|lia].
    change ((n, v) :: l) with ([(n, v)] ++ l). eapply wrote_app; [repeat constructor; cbn [fst]; lia|exact Hp|exact H1|].
    replace (fbits [(n, v)]) with n; [exact H|]. unfold fbits. cbn [fold_right fst]. lia.
Qed.
Lemma bbWrites_total l : forall b p, widthsOk l -> bytes_ok b = true -> 0 <= p -> p + fbits l <= 8 * zlen b -> exists b', bbWrites b p l = Ok b'.
Proof.
  induction l as [|[n v] l IH]; intros b p Hw Hb Hp Hl; cbn [bbWrites]; [eauto|].
  inversion Hw as [|f l0 Hn Hl']; subst. cbn [fst] in Hn. rewrite fbits_cons in Hl. cbn [fst] in Hl.
  pose proof (fbits_nonneg l (widthsOk_fields l Hl')). destruct (bbWrite_total b p v n) as [b1 E]; [lia|lia|lia|]. rewrite E. cbn [rbind].
  apply bbWrite_inv in E; [|assumption|assumption|exact Hn]. apply IH; [exact Hl'|exact (wrote_bytes _ _ _ _ E)|lia|]. rewrite (wrote_len _ _ _ _ E). lia.
Qed.

Lemma fbits_map {A} (f : A -> Z * Z) w l : (forall x, fst (f x) = w) -> fbits (map f l) = w * zlen l.
Proof.
  intros H. induction l as [|x l IH]; [unfold fbits; cbn; change (zlen (@nil A)) with 0; lia|].
  cbn [map]. rewrite fbits_cons, IH, H, zlen_cons. lia.
Qed.
Lemma widths_map {A} (f : A -> Z * Z) w l : (forall x, fst (f x) = w) -> 0 <= w <= 32 -> widthsOk (map f l).
Proof. intros H Hw. apply Forall_forall. intros x Hx. apply in_map_iff in Hx. destruct Hx as (y & <- & _). rewrite H. exact Hw. Qed.

(** ** Reading fields *)
Lemma coef_back c : inRange 16 c -> s16 (c mod 2 ^ 16) = c.
Proof. intros H. unfold inRange in H. change (2 ^ (16 - 1)) with 32768 in H. unfold s16, sN. change (2 ^ (16 - 1)) with 32768. change (2 ^ 16) with 65536. lia. Qed.
Lemma sN_hi k x : 0 <= k -> sN (16 + k) x = sN 16 ((x / 2 ^ k) mod 2 ^ 16) * 2 ^ k + x mod 2 ^ k.
Proof.
  intros Hk. unfold sN. assert (P : 0 < 2 ^ k) by (apply Z.pow_pos_nonneg; lia). replace (16 + k - 1) with (15 + k) by lia. rewrite !Z.pow_add_r by lia.
  change (2 ^ 16) with 65536. change (2 ^ (16 - 1)) with 32768. change (2 ^ 15) with 32768.
  set (P2 := 2 ^ k) in *. clearbody P2. rewrite Z.add_mod_idemp_l by lia.
  rewrite (Z.mul_comm 65536 P2). rewrite Z.rem_mul_r by lia. replace ((x + 32768 * P2) mod P2) with (x mod P2) by (symmetry; apply Z.mod_add; lia).
  replace ((x + 32768 * P2) / P2) with (x / P2 + 32768) by (symmetry; apply Z.div_add; lia). lia.
Qed.
Lemma sN_hi32 v : sN 32 (v * 65536) = sN 16 v * 65536.
Proof.
  unfold sN. change (2 ^ 32) with (65536 * 65536). change (2 ^ (32 - 1)) with (32768 * 65536). change (2 ^ (16 - 1)) with 32768. change (2 ^ 16) with 65536.
  rewrite <- Z.mul_add_distr_r. rewrite Z.mul_mod_distr_r by lia. lia.
Qed.
Section Reading.
Context (b : list Z) (size : Z) (Hb : bytes_ok b = true) (Hs : size + 3 <= zlen b).

Lemma rd_small p n v l : holds b p ((n, v) :: l) -> 0 <= p -> 1 <= n <= 8 -> p + n <= 8 * size -> bbReadSmall b p n = Ok (v mod 2 ^ n).
Proof. intros [H _] Hp Hn Hl. rewrite bbReadSmall_ok by (try assumption; lia). rewrite H. reflexivity. Qed.
Lemma rd p n v l : holds b p ((n, v) :: l) -> 0 <= p -> 0 <= n <= 16 -> p + n <= 8 * size -> bbRead b p n = Ok (v mod 2 ^ n).
Proof. intros [H _] Hp Hn Hl. rewrite bbRead_ok by (try assumption; lia). rewrite H. reflexivity. Qed.

Lemma holds_cut p n1 n2 v l : 0 <= n1 -> 0 <= n2 -> holds b p ((n1 + n2, v) :: l) -> holds b p ((n1, v / 2 ^ n2) :: (n2, v) :: l).
Proof.
  intros H1 H2 [A B]. cbn [holds]. rewrite bitsAt_split in A by assumption. rewrite Z.add_assoc in B.
  assert (P1 : 0 < 2 ^ n1) by (apply Z.pow_pos_nonneg; lia). assert (P2 : 0 < 2 ^ n2) by (apply Z.pow_pos_nonneg; lia).
  pose proof (bitsAt_range b p n1 H1). pose proof (bitsAt_range b (p + n1) n2 H2).
  rewrite Z.pow_add_r in A by assumption. rewrite (Z.mul_comm (2 ^ n1)) in A. rewrite Z.rem_mul_r in A by lia.
  assert (Q : bitsAt b p n1 = (v / 2 ^ n2) mod 2 ^ n1 /\ bitsAt b (p + n1) n2 = v mod 2 ^ n2).
  { pose proof (Z.mod_pos_bound v (2 ^ n2) P2). pose proof (Z.mod_pos_bound (v / 2 ^ n2) (2 ^ n1) P1). 
    set (x := bitsAt b p n1) in *. set (y := bitsAt b (p + n1) n2) in *. set (z := (v / 2 ^ n2) mod 2 ^ n1) in *. set (w := v mod 2 ^ n2) in *.
    clearbody x y z w. assert (x = z) by nia. subst. split; [reflexivity|nia]. }
  destruct Q as [Q1 Q2]. split; [exact Q1|]. split; [exact Q2|exact B].
Qed.

Lemma readMany_ok n cs : forall p l, 0 <= n <= 16 -> 0 <= p -> p + n * zlen cs <= 8 * size -> holds b p (map (fun c => (n, c)) cs ++ l) ->
  readMany (length cs) b p n = Ok (map (fun c => c mod 2 ^ n) cs).
Proof.
  induction cs as [|c cs IH]; intros p l Hn Hp Hl H; [reflexivity|]. cbn [length readMany map app] in *. rewrite zlen_cons in Hl. pose proof (zlen_nonneg cs).
  rewrite (rd p n c _ H) by nia. cbn [rbind]. destruct H as [_ H]. rewrite (IH (p + n) l) by (try assumption; nia). reflexivity.
Qed.


Lemma readParams_ok p num cs l : num = 4 \/ num = 8 -> zlen cs = num -> Forall (inRange 16) cs -> 0 <= p -> p + fbits (paramFields num cs) <= 8 * size ->
  holds b p (paramFields num cs ++ l) -> readParams b p = Ok (Params 0 9 4 num cs (p + fbits (paramFields num cs))).
Proof.
  intros Hn Lc Fc Hp Hl H. unfold paramFields in *. rewrite <- app_assoc in H. cbn [app] in H. rewrite fbits_app in *.
  rewrite (fbits_map _ 16) in * by reflexivity. change (fbits [(8, Z.lor (Z.shiftl 0 4) 9); (8, Z.lor (Z.shiftl 4 5) num)]) with 16 in *. rewrite Lc in *.
  unfold readParams. rewrite (rd p 8 _ _ H) by lia. cbn [rbind]. destruct H as [_ H]. rewrite (rd (p + 8) 8 _ _ H) by lia. cbn [rbind]. destruct H as [_ H].
  assert (E1 : Z.land (Z.lor (Z.shiftl 4 5) num mod 2 ^ 8) 31 = num) by (destruct Hn as [-> | ->]; reflexivity).
  assert (E2 : Z.shiftr (Z.lor (Z.shiftl 4 5) num mod 2 ^ 8) 5 = 4) by (destruct Hn as [-> | ->]; reflexivity).
  rewrite E1, E2. replace (Z.to_nat num) with (length cs) by (unfold zlen in Lc; lia). replace (p + 8 + 8) with (p + 16) in H by lia.
  rewrite (readMany_ok 16 cs (p + 16) l) by (try assumption; lia). cbn [rbind].
  replace (map s16 (map (fun c => c mod 2 ^ 16) cs)) with cs.
  - change (Z.shiftr (Z.lor (Z.shiftl 0 4) 9 mod 2 ^ 8) 4) with 0. change (Z.land (Z.lor (Z.shiftl 0 4) 9 mod 2 ^ 8) 15) with 9. replace (p + (16 + 16 * num)) with (p + 16 + 16 * num) by lia. reflexivity.
  - rewrite map_map. clear - Fc. induction Fc as [|c cs Hc Fc IH]; [reflexivity|]. cbn [map]. rewrite coef_back by exact Hc. f_equal. exact IH.
Qed.

Lemma readHead_ok p inst fr n m flags l : 0 <= n < 2 ^ 32 -> (n = fr -> m = n) -> flags = 0 \/ flags = 1 \/ flags = 2 \/ flags = 4 -> 0 <= p ->
  p + 4 + fbits (headFields fr n flags) <= 8 * size -> holds b p ((4, inst) :: headFields fr n flags ++ l) ->
  exists partial, readHead b p m = Ok (Some (Head partial (flags / 2) (flags =? 1) n (p + 4 + fbits (headFields fr n flags)))).
Proof.
  intros Hn Hm Hf Hp Hl H. unfold headFields in *. unfold readHead.
  set (partial := if n =? fr then 0 else 1) in *. set (F := if partial =? 1 then [(32, n)] else []) in *. cbv zeta in *.
  rewrite fbits_app in *. change (fbits [(12, 0); (4, Z.lor (Z.shiftl partial 3) flags)]) with 16 in *.
  assert (LF : 0 <= fbits F) by (unfold F; destruct (partial =? 1); vm_compute; discriminate).
  rewrite (rd_small p 4 inst _ H) by lia. cbn [rbind]. destruct H as [_ H]. rewrite <- app_assoc in H. cbn [app] in H.
  rewrite (rd (p + 4) 12 0 _ H) by lia. cbn [rbind]. destruct H as [_ H]. change (0 mod 2 ^ 12) with 0. cbn [Z.eqb negb].
  replace (p + 4 + 12) with (p + 16) in H by lia. rewrite (rd (p + 16) 4 _ _ H) by lia. cbn [rbind]. destruct H as [_ H].
  assert (EF : F = if partial =? 1 then [(32, n)] else []) by reflexivity. clearbody F.
  assert (Ep : partial = 0 /\ n = fr \/ partial = 1 /\ n <> fr) by (unfold partial; destruct (Z.eqb_spec n fr); auto).
  assert (X : Z.land (Z.shiftr (Z.lor (Z.shiftl partial 3) flags mod 2 ^ 4) 1) 3 = flags / 2 /\ flags / 2 <> 3 /\
              negb (Z.land (Z.lor (Z.shiftl partial 3) flags mod 2 ^ 4) 1 =? 0) = (flags =? 1) /\ Z.shiftr (Z.lor (Z.shiftl partial 3) flags mod 2 ^ 4) 3 = partial).
  { destruct Ep as [[-> _] | [-> _]]; destruct Hf as [-> | [-> | [-> | ->]]]; vm_compute; repeat split; discriminate. }
  destruct X as (X1 & X2 & X3 & X4). rewrite X1, X3, X4. replace (flags / 2 =? 3) with false by lia.
  clearbody partial. destruct Ep as [[E En] | [E En]]; subst partial; cbn [Z.eqb Pos.eqb] in EF; subst F.
  - cbn [Z.eqb negb]. change (fbits []) with 0. rewrite Hm by exact En. exists false. replace (p + 4 + (16 + 0)) with (p + 20) by lia. reflexivity.
  - cbn [Z.eqb Pos.eqb negb]. cbn [app] in H. change (fbits [(32, n)]) with 32 in *. replace (p + 16 + 4) with (p + 20) in H by lia.
    apply (holds_cut _ 16 16) in H; [|lia|lia]. rewrite (rd (p + 20) 16 _ _ H) by lia. cbn [rbind]. destruct H as [_ H]. replace (p + 20 + 16) with (p + 36) in H by lia.
    rewrite (rd (p + 36) 16 _ _ H) by lia. cbn [rbind]. exists true. replace (p + 4 + (16 + 32)) with (p + 52) by lia. do 3 f_equal.
    change (2 ^ 16) with 65536 in *. change (2 ^ 32) with 4294967296 in Hn. rewrite (Z.mod_small (n / 65536)) by lia. unfold u32. rewrite uN_small.
    + rewrite lor_cat; [change (2 ^ 16) with 65536; lia|lia|change (2 ^ 16) with 65536; lia].
    + rewrite Z.shiftl_mul_pow2 by lia. change (2 ^ 16) with 65536. change (2 ^ 32) with 4294967296. lia.
Qed.

Lemma readRaw_ok p depth x l : depthOk depth -> inRange depth x -> 0 <= p -> p + depth <= 8 * size -> holds b p ((depth, x) :: l) -> readRaw b p depth = Ok x.
Proof.
  intros Hd Hx Hp Hl H. unfold readRaw. assert (Id : sN depth x = x) by (unfold inRange in Hx; apply sN_small; [destruct Hd as [->|[->|[->| ->]]]; lia|exact Hx]).
  destruct (Z.leb_spec depth 16) as [L|L].
  - assert (depth = 16) by (unfold depthOk in Hd; lia). subst depth. rewrite (rd p 16 x _ H) by lia. cbn [rbind]. rewrite signExtend_is by lia.
    f_equal. unfold inRange in Hx. change (2 ^ (16 - 1)) with 32768 in Hx. unfold sN. change (2 ^ (16 - 1)) with 32768. change (2 ^ 16) with 65536. lia.
  - set (k := depth - 16) in *. replace depth with (16 + k) in H by (unfold k; lia). apply holds_cut in H; [|lia|unfold k; lia].
    assert (Hk : 1 <= k <= 16) by (unfold k, depthOk in *; lia). rewrite (rd p 16 _ _ H) by lia. cbn [rbind]. destruct H as [_ H].
    rewrite (rd (p + 16) k _ _ H) by lia. cbn [rbind]. f_equal. rewrite <- Id at 3. replace depth with (16 + k) at 2 by (unfold k; lia). rewrite sN_hi by lia.
    unfold s32. rewrite Z.shiftl_mul_pow2 by lia. change (2 ^ 16) with 65536 at 2. rewrite sN_hi32. set (h := sN 16 ((x / 2 ^ k) mod 2 ^ 16)).
    rewrite Z.shiftr_div_pow2 by lia. assert (E : h * 65536 / 2 ^ (32 - depth) = h * 2 ^ k).
    { change 65536 with (2 ^ 16). replace 16 with (k + (32 - depth)) by (unfold k; lia). rewrite Z.pow_add_r by lia. rewrite Z.mul_assoc. apply Z.div_mul. apply Z.pow_nonzero; lia. }
    rewrite E. rewrite <- Z.shiftl_mul_pow2 by lia. rewrite lor_cat; [|lia|apply Z.mod_pos_bound; apply Z.pow_pos_nonneg; lia]. rewrite ?Z.shiftl_mul_pow2 by lia. reflexivity.
Qed.
Lemma readRaws_ok depth xs : forall p l, depthOk depth -> Forall (inRange depth) xs -> 0 <= p -> p + depth * zlen xs <= 8 * size ->
  holds b p (map (fun x => (depth, x)) xs ++ l) -> readRaws (length xs) b p depth = Ok xs.
Proof.
  induction xs as [|x xs IH]; intros p l Hd Fx Hp Hl H; [reflexivity|]. inversion Fx as [|x0 xs0 Hx Fx']; subst. cbn [length readRaws map app] in *.
  rewrite zlen_cons in Hl. pose proof (zlen_nonneg xs). assert (16 <= depth) by (unfold depthOk in Hd; lia).
  rewrite (readRaw_ok p depth x _ Hd Hx) with (3 := H) by nia. cbn [rbind]. destruct H as [_ H]. rewrite (IH (p + depth) l) by (try assumption; nia). reflexivity.
Qed.

Lemma readResidual_ok {W : Arith} fr depth chanBits p n num cs xs r pos l : 1 <= chanBits <= 25 -> 8 < fr -> zlen xs = n -> n <= fr -> num = 4 \/ num = 8 ->
  Forall (inRange chanBits) xs -> pc_block fr num chanBits 9 cs xs = Ok r -> 0 <= p -> p + fbits (golombFields chanBits r) <= 8 * size ->
  holds b p (golombFields chanBits r ++ l) ->
  readResidual (cookie fr depth) chanBits b size p n (Params 0 9 4 num cs pos) = Ok (Some (xs, p + fbits (golombFields chanBits r))).
Proof.
  intros Hc Hf Ln Hn Hnum Fx Hpc Hp Hl H. unfold readResidual. replace ((chanBits <? 1) && (0 <? n)) with false by lia.
  cbn [cookie g_mb g_pb g_kb g_frame q_pb q_mode q_num q_den q_coefs].
  change {| ag_mb := MB0; ag_pb := PB0 * 4 / 4; ag_kb := KB0 |} with stdAg.
  apply (pc_block_undo fr fr) in Hpc; [|lia|lia|exact Hnum|exact Fx|lia|lia]. destruct Hpc as (Hu & Fr & Lr).
  replace n with (zlen r) by lia. apply holds_app in H. destruct H as [H _].
  rewrite (dyn_decomp_reads chanBits b size p r fr) by (try assumption; lia). cbn [rbind Z.eqb]. rewrite Hu. reflexivity.
Qed.
End Reading.

(** ** Mixing and shifting *)
Lemma inputOf_range depth x : depthOk depth -> inRange (container depth) x -> inRange depth (inputOf depth x).
Proof.
  intros [->|[->|[->| ->]]] H; try exact H. unfold inRange, container, inputOf in *. cbn [Z.eqb Pos.eqb] in *. change (2 ^ (24 - 1)) with 8388608 in H. change (2 ^ (20 - 1)) with 524288.
  rewrite Z.shiftr_div_pow2 by lia. change (2 ^ 4) with 16. lia.
Qed.
Definition monoBits (depth : Z) : Z := depth - shiftOf depth.
Lemma monoBits_range depth : depthOk depth -> 16 <= monoBits depth <= 20. Proof. intros [->|[->|[->| ->]]]; vm_compute; split; discriminate. Qed.
Lemma highOf_range depth x : depthOk depth -> inRange (container depth) x -> inRange (monoBits depth) (highOf depth x).
Proof.
  intros Hd Hx. pose proof (inputOf_range depth x Hd Hx) as Hi. unfold highOf. set (y := inputOf depth x) in *. clearbody y.
  destruct Hd as [->|[->|[->| ->]]]; unfold inRange, monoBits, shiftOf in *; cbn [Z.eqb Pos.eqb Z.leb Z.compare Pos.compare Pos.compare_cont Z.sub Z.add Z.opp Z.pos_sub Pos.pred_double] in *; rewrite Z.shiftr_div_pow2 by lia.
  - change (2 ^ (16 - 1)) with 32768 in Hi. change (2 ^ (16 - 0 - 1)) with 32768. change (2 ^ 0) with 1. lia.
  - change (2 ^ (20 - 1)) with 524288 in Hi. change (2 ^ (20 - 0 - 1)) with 524288. change (2 ^ 0) with 1. lia.
  - change (2 ^ (24 - 1)) with 8388608 in Hi. change (2 ^ (24 - 8 - 1)) with 32768. change (2 ^ 8) with 256. lia.
  - change (2 ^ (32 - 1)) with 2147483648 in Hi. change (2 ^ (32 - 16 - 1)) with 32768. change (2 ^ 16) with 65536. lia.
Qed.
Lemma lowOf_range depth x : depthOk depth -> 0 <= lowOf depth x < 2 ^ shiftOf depth.
Proof.
  intros Hd. unfold lowOf. assert (0 <= shiftOf depth) by (destruct Hd as [->|[->|[->| ->]]]; vm_compute; discriminate).
  replace (2 ^ shiftOf depth - 1) with (Z.ones (shiftOf depth)) by (rewrite Z.ones_equiv; lia). rewrite Z.land_ones by lia. apply Z.mod_pos_bound. apply Z.pow_pos_nonneg; lia.
Qed.
Lemma output_back depth x : depthOk depth -> inRange (container depth) x -> outputOf depth (shiftOf depth) (highOf depth x) (lowOf depth x) = kept depth x.
Proof.
  intros Hd Hx. unfold outputOf, kept. 
  assert (J : Z.lor (Z.shiftl (highOf depth x) (shiftOf depth)) (lowOf depth x) = inputOf depth x).
  { assert (0 <= shiftOf depth) by (destruct Hd as [->|[->|[->| ->]]]; vm_compute; discriminate).
    rewrite lor_cat by (try apply lowOf_range; assumption). unfold highOf, lowOf. replace (2 ^ shiftOf depth - 1) with (Z.ones (shiftOf depth)) by (rewrite Z.ones_equiv; lia).
    rewrite Z.land_ones, Z.shiftr_div_pow2 by lia. pose proof (Z.div_mod (inputOf depth x) (2 ^ shiftOf depth)). assert (2 ^ shiftOf depth <> 0) by (apply Z.pow_nonzero; lia). lia. }
  rewrite J. unfold inRange in Hx.
  destruct Hd as [->|[->|[->| ->]]].
  - change (shiftOf 16) with 0. cbn [Z.eqb]. unfold highOf, inputOf. change (shiftOf 16) with 0. cbn [Z.eqb Pos.eqb]. rewrite Z.shiftr_0_r. apply sN_small; [lia|exact Hx].
  - cbn [Z.eqb Pos.eqb]. unfold highOf, inputOf. change (shiftOf 20) with 0. cbn [Z.eqb Pos.eqb]. rewrite Z.shiftr_0_r.
    rewrite Z.shiftl_mul_pow2, Z.shiftr_div_pow2 by lia. change (2 ^ 4) with 16. change (container 20) with 24 in Hx. rewrite sN_small; [lia|lia|]. change (2 ^ (24 - 1)) with 8388608 in *. lia.
  - change (shiftOf 24) with 8. cbn [Z.eqb Pos.eqb]. apply sN_small; [lia|exact Hx].
  - change (shiftOf 32) with 16. cbn [Z.eqb Pos.eqb]. apply (sN_small 32); [lia|exact Hx].
Qed.
Lemma output_raw depth x : depthOk depth -> inRange (container depth) x -> outputOf depth 0 (inputOf depth x) 0 = kept depth x.
Proof.
  intros Hd Hx. unfold outputOf, kept. cbn [Z.eqb]. unfold inRange in Hx. destruct Hd as [->|[->|[->| ->]]].
  - apply (sN_small 16); [lia|exact Hx].
  - cbn [Z.eqb Pos.eqb]. unfold inputOf. cbn [Z.eqb Pos.eqb].
    rewrite Z.shiftl_mul_pow2, Z.shiftr_div_pow2 by lia. change (2 ^ 4) with 16. change (container 20) with 24 in Hx. rewrite sN_small; [lia|lia|]. change (2 ^ (24 - 1)) with 8388608 in *. lia.
  - apply (sN_small 24); [lia|exact Hx].
  - apply (sN_small 32); [lia|exact Hx].
Qed.

Lemma mix_back {W : Arith} bits m l r : 1 <= bits <= 20 -> 0 <= m <= 4 -> inRange bits l -> inRange bits r ->
  exists u v, mixOne 2 m (l, r) = Ok (u, v) /\ inRange (bits + 1) u /\ inRange (bits + 1) v /\ unmixOne 2 m (u, v) = Ok (l, r).
Proof.
  intros Hb Hm Hl Hr. unfold mixOne, unmixOne, inRange in *. replace (bits + 1 - 1) with (Z.succ (bits - 1)) by lia. rewrite Z.pow_succ_r by lia.
  assert (P : 0 < 2 ^ (bits - 1) <= 524288) by (split; [apply Z.pow_pos_nonneg; lia|change 524288 with (2 ^ 19); apply Z.pow_le_mono_r; lia]).
  set (B := 2 ^ (bits - 1)) in *. clearbody B.
  destruct (Z.eqb_spec m 0) as [->|N].
  - exists l, r. split; [reflexivity|]. split; [lia|]. split; [lia|reflexivity].
  - change (2 ^ 31) with 2147483648 in *. change (2 ^ 2) with 4.
    assert (A1 : - 2147483648 <= m * l < 2147483648) by nia. assert (A2 : - 2147483648 <= (4 - m) * r < 2147483648) by nia.
    assert (A3 : m * l + (4 - m) * r = 4 * r + m * (l - r)) by ring. assert (A4 : - (4 * B) <= m * l + (4 - m) * r < 4 * B) by nia.
    assert (A5 : - 8 * B < m * (l - r) < 8 * B) by nia.
    rewrite (i32_small (m * l)) by exact A1. cbn [rbind]. rewrite (i32_small ((4 - m) * r)) by exact A2. cbn [rbind].
    rewrite (i32_small (m * l + (4 - m) * r)) by (change (2 ^ 31) with 2147483648; lia). cbn [rbind]. rewrite (i32_small (l - r)) by (change (2 ^ 31) with 2147483648; lia). cbn [rbind].
    rewrite Z.shiftr_div_pow2 by lia. change (2 ^ 2) with 4. exists ((m * l + (4 - m) * r) / 4), (l - r). split; [reflexivity|].
    set (q := m * (l - r)) in *. set (s := m * l + (4 - m) * r) in *. clearbody q. assert (Es : s / 4 = r + q / 4) by (rewrite A3; lia). clearbody s.
    split; [lia|]. split; [lia|]. cbn [Z.ltb Z.compare Pos.compare Pos.compare_cont]. rewrite (i32_small q) by (change (2 ^ 31) with 2147483648; lia). cbn [rbind].
    rewrite (i32_small (s / 4 + (l - r))) by (change (2 ^ 31) with 2147483648; lia). cbn [rbind]. rewrite Z.shiftr_div_pow2 by lia. change (2 ^ 2) with 4.
    rewrite (i32_small (s / 4 + (l - r) - q / 4)) by (change (2 ^ 31) with 2147483648; lia). cbn [rbind].
    rewrite (i32_small (s / 4 + (l - r) - q / 4 - (l - r))) by (change (2 ^ 31) with 2147483648; lia). cbn [rbind]. f_equal. f_equal; lia.
Qed.
