(** * C67: the converters stay inside their buffers.  C68: what the caller's bytes mean.

    afReadFrames and afWriteFrames pass pieces of at most 1024 frames through a chain of converters.  The buffers between
    the converters are allocated once, by ModuleState::setup; the last (reading) or first (writing) one is the caller's. *)
From Verif Require Import Prelude PreludeFacts ByteOrder ByteOrderProofs Convert ConvertProofs Float FloatFacts FloatConv FloatBits FloatValid Arrange ArrangeProofs Memory MemoryProofs.
From Coq Require Import Lia.

(** ** Specification *)

(** The frames in a byte buffer: [ch] samples of type [t] per frame, each in [k] bytes of byte order [o], two's complement,
    unsigned or IEEE 754 ([dec]). *)
Definition framesIn (o : order) (t : ty) (k ch n : Z) (b : list Z) : list (list smp) :=
  groups (Z.to_nat ch) (Z.to_nat n) (map (dec o t) (groups (Z.to_nat k) (Z.to_nat (n * ch)) b)).
(** The bytes a sample takes in the file's frames and in the caller's: 24-bit samples take 3 and 4. *)
Definition fileBytes (t : ty) : Z := match t with TI kInt8 | TU kInt8 => 1 | TI kInt16 | TU kInt16 => 2 | TI kInt24 | TU kInt24 => 3 | TI kInt32 | TU kInt32 | TF => 4 | TD => 8 end.
Definition userBytes (t : ty) : Z := match t with TI kInt8 | TU kInt8 => 1 | TI kInt16 | TU kInt16 => 2 | TI kInt24 | TU kInt24 | TI kInt32 | TU kInt32 | TF => 4 | TD => 8 end.
(** The low 24 bits of a 24-bit sample; other samples as they are. *)
Definition low24 (s : smp) : smp := match s with SI kInt24 z => SI kInt24 (sN 24 z) | SU kInt24 z => SU kInt24 (z mod 2 ^ 24) | _ => s end.

(** The formats of a file and of the caller's frames, and how they are joined: what a caller can set up. *)
Record setting (wrapv : bool) (host : order) (isReading : bool) (f v : format) (matrix : option (list (list spec_float))) (ms : list module) (tf tv : ty) : Prop := {
  s_file : fmtTy f = Some tf; s_user : fmtTy v = Some tv;
  s_arranged : (if isReading then arrange wrapv host true f v matrix else arrange wrapv host false v f matrix) = Ok (Some ms);
  s_pcm : validPCM (pcm f) /\ validPCM (pcm v);
  s_channels : 1 <= channelCount f < 2 ^ 18 /\ 1 <= channelCount v < 2 ^ 18;
  s_uncompressed : compressed v = false;
  s_matrix : match matrix with Some m => Forall (Forall (fun x => validD x = true)) m | None => True end;
  (* afSetChannelMatrix copies as many entries as the two formats have at that time *)
  s_rows : zlen (matrixRows isReading (if isReading then channelCount f else channelCount v) (if isReading then channelCount v else channelCount f) matrix) =
           (if isReading then channelCount v else channelCount f) }.

(** ** Layouts *)
Lemma fileBytes_val t : Z.of_nat (packedSize t) = fileBytes t. Proof. destruct t as [[]|[]| |]; reflexivity. Qed.
Lemma userBytes_val t : Z.of_nat (tysize t) = userBytes t. Proof. destruct t as [[]|[]| |]; reflexivity. Qed.
Lemma groups_Forall {A} (P : A -> Prop) k n : forall l, Forall P l -> Forall (Forall P) (groups k n l).
Proof. induction n as [|n IH]; intros l H; cbn [groups]; [constructor|]. rewrite <- (firstn_skipn k l) in H. apply Forall_app in H as [H1 H2]. constructor; [exact H1|apply IH; exact H2]. Qed.
Lemma bytes_ok_Forall l : bytes_ok l = true <-> Forall (fun x => bytes_ok [x] = true) l.
Proof.
  induction l as [|x l IH]; [split; [constructor|reflexivity]|]. unfold bytes_ok in *. cbn [forallb] in *. rewrite Forall_cons_iff, <- IH. cbn [forallb]. rewrite !andb_true_iff. tauto.
Qed.
Lemma bytes_ok_concat cells k : isCells k cells -> bytes_ok (concat cells) = true.
Proof. intros C. apply bytes_ok_Forall, Forall_concat. eapply Forall_impl; [|exact C]. intros c [_ B]. apply bytes_ok_Forall. exact B. Qed.
Lemma cells_of k n d : length d = (n * k)%nat -> bytes_ok d = true -> isCells k (groups k n d) /\ concat (groups k n d) = d /\ length (groups k n d) = n.
Proof.
  intros L B. destruct (groups_len k n d L) as (G1 & G2 & G3). split; [|auto]. apply bytes_ok_Forall in B. pose proof (groups_Forall _ k n d B) as GB. apply Forall_forall. intros c Hc. rewrite Forall_forall in G2, GB. split; [auto|]. apply bytes_ok_Forall. auto.
Qed.
Lemma dec_same t o o' c : sameOrder t o o' -> length c = packedSize t \/ length c = tysize t -> dec o t c = dec o' t c.
Proof.
  intros [-> |P] L; [reflexivity|]. assert (L1 : length c = 1%nat) by (destruct t as [[]|[]| |]; cbn in P, L; lia). destruct c as [|b [|]]; try discriminate L1.
  destruct t as [c|c| |]; try discriminate P; cbn [dec]; destruct o, o'; reflexivity.
Qed.
(** Bytes as frames, for the proofs. *)
Lemma framesIn_typed o o' t k ch n d : sameOrder t o o' -> k = packedSize t \/ k = tysize t -> 0 <= ch -> 0 <= n -> bytes_ok d = true -> zlen d = Z.of_nat k * (n * ch) ->
  let frs := framesIn o' t (Z.of_nat k) ch n d in typed t ch frs /\ zlen frs = n /\ exactly o t k (concat frs) d /\ Forall (fun s => seen k s = s) (concat frs).
Proof.
  intros SO K C N B L. cbv zeta. unfold framesIn. rewrite Nat2Z.id. set (cells := groups k (Z.to_nat (n * ch)) d) in *. set (frs := groups (Z.to_nat ch) (Z.to_nat n) (map (dec o' t) cells)).
  assert (LN : length d = (Z.to_nat (n * ch) * k)%nat). { unfold zlen in L. assert (0 <= n * ch) by (apply Z.mul_nonneg_nonneg; lia). nia. }
  destruct (cells_of k (Z.to_nat (n * ch)) d LN B) as (C1 & C2 & C3). fold cells in C1, C2, C3.
  assert (LM : length (map (dec o' t) cells) = (Z.to_nat n * Z.to_nat ch)%nat) by (rewrite map_length, C3; apply Z2Nat.inj_mul; lia).
  destruct (groups_len (Z.to_nat ch) (Z.to_nat n) (map (dec o' t) cells) LM) as (G1 & G2 & G3). fold frs in G1, G2, G3.
  assert (DF : Forall (fun s => tyOf s = t /\ okSmp s /\ seen k s = s) (concat frs)).
  { rewrite G1. apply Forall_map. eapply Forall_impl; [|exact C1]. intros c [Lc Bc]. rewrite <- Lc. apply dec_facts; [exact Bc|]. rewrite Lc. tauto. }
  split; [split|split; [|split]].
  - apply Forall_forall. intros fr Hf. split; [rewrite Forall_forall in G2; unfold zlen; rewrite (G2 fr Hf); lia|]. apply (proj1 (Forall_concat _ _)) in DF. rewrite Forall_forall in DF. eapply Forall_impl; [|apply (DF fr Hf)]. tauto.
  - apply Forall_concat. eapply Forall_impl; [|exact DF]. tauto.
  - unfold zlen. rewrite G3. lia.
  - exists cells. split; [symmetry; exact C2|]. split; [exact C1|]. rewrite seen_map_id by (eapply Forall_impl; [|exact DF]; tauto). rewrite G1. apply map_ext_in. intros c Hc. unfold isCells in C1. rewrite Forall_forall in C1. destruct (C1 c Hc) as [Lc _]. apply dec_same; [exact SO|]. rewrite Lc. tauto.
  - eapply Forall_impl; [|exact DF]. tauto.
Qed.
Lemma framesIn_exactly o o' t k ch d frs : sameOrder t o o' -> k = packedSize t \/ k = tysize t -> 0 <= ch -> Forall (fun fr => zlen fr = ch) frs -> exactly o t k (concat frs) d ->
  framesIn o' t (Z.of_nat k) ch (zlen frs) d = map (map (seen k)) frs /\ bytes_ok d = true.
Proof.
  intros SO K C FL (cells & -> & C1 & E). split; [|eapply bytes_ok_concat; exact C1]. unfold framesIn. rewrite Nat2Z.id.
  assert (CL : length cells = length (concat frs)) by (apply (f_equal (@length smp)) in E; rewrite !map_length in E; exact E).
  assert (LC : Z.to_nat (zlen frs * ch) = length cells). { rewrite CL. rewrite <- (concat_frames_len ch frs FL). unfold zlen. lia. }
  rewrite LC. rewrite <- (app_nil_r (concat cells)). rewrite groups_concat by (apply isCells_len; exact C1).
  replace (map (dec o' t) cells) with (map (seen k) (concat frs)).
  2:{ rewrite <- E. apply map_ext_in. intros c Hc. unfold isCells in C1. rewrite Forall_forall in C1. destruct (C1 c Hc) as [Lc _]. apply dec_same; [exact SO|]. rewrite Lc. tauto. }
  rewrite concat_map. replace (Z.to_nat (zlen frs)) with (length (map (map (seen k)) frs)) by (rewrite map_length; unfold zlen; lia).
  rewrite <- (app_nil_r (concat (map (map (seen k)) frs))). apply groups_concat. apply Forall_map. eapply Forall_impl; [|exact FL]. intros fr Hfr. cbv beta in Hfr. rewrite map_length. unfold zlen in Hfr. lia.
Qed.

(** ** Reading *)
Lemma file_describe_facts host f t : fmtTy f = Some t -> fmtTy (fileDescribe host f) = Some t /\ compressed (fileDescribe host f) = false /\ channelCount (fileDescribe host f) = channelCount f.
Proof.
  intros F. unfold fileDescribe. destruct (compressed f) eqn:C; [|auto]. split; [|auto]. revert F. unfold fmtTy, getFormatCode, bytesPerSample, isUnsigned. cbn [sampleFormat sampleWidth compressed]. rewrite C, !andb_false_r. auto.
Qed.
Lemma stepsCh_end wrapv host rd fin fout matrix ms t t' : fmtTy fin = Some t -> fmtTy fout = Some t' -> arrange wrapv host rd fin fout matrix = Ok (Some ms) ->
  zlen (matrixRows rd (channelCount fin) (channelCount fout) matrix) = channelCount fout -> stepsTy ms t = Some t' /\ stepsCh ms (channelCount fin) = channelCount fout.
Proof.
  intros F1 F2 A R. destruct (arrange_ty _ _ _ _ _ _ _ _ _ F1 F2 A) as [S C]. split; [exact S|]. rewrite C, R. destruct (Z.eqb_spec (channelCount fin) (channelCount fout)); auto.
Qed.
Lemma outs_len ms frs outs : rmapM (runChain ms) frs = Ok outs -> zlen outs = zlen frs.
Proof. intros H. unfold zlen. rewrite (rmapM_len _ _ _ H). reflexivity. Qed.
Lemma rmapM_id {A} (l r : list A) : rmapM (fun x => Ok x) l = Ok r -> r = l.
Proof. rewrite (rmapM_pure (fun x => x)), map_id. congruence. Qed.
Lemma user_frame v t : fmtTy v = Some t -> compressed v = false -> 1 <= channelCount v < 2 ^ 18 -> bytesPerFrame true v = userBytes t * channelCount v.
Proof.
  intros F C H. destruct (bufSize_val 1024 v t F C ltac:(lia) ltac:(lia)) as [-> _]; [| |rewrite userBytes_val; reflexivity]; rewrite ?userBytes_val; change (2 ^ 31) with 2147483648; change (2 ^ 18) with 262144 in H; [|lia].
  destruct t as [[]|[]| |]; cbn [userBytes]; lia.
Qed.
Lemma seen_map2 t ch frs : typed t ch frs -> map (map (seen (tysize t))) frs = frs.
Proof.
  intros [T O]. rewrite <- (map_id frs) at 2. apply map_ext_in. intros fr Hf. rewrite Forall_forall in T, O. apply seen_map; [apply O; exact Hf|apply T; exact Hf].
Qed.

Lemma read_piece wrapv host f v matrix ms tf tv n data bufs user outs packet own :
  setting wrapv host true f v matrix ms tf tv -> (is24 tv = true -> byteOrder v = host) ->
  0 <= n <= atomicFrames -> bytes_ok data = true -> zlen data = n * (fileBytes tf * channelCount f) ->
  length bufs = length ms -> Forall (fun b => readCapacity ms (fileDescribe host f) packet own <= zlen b) bufs -> n * (userBytes tv * channelCount v) <= zlen user ->
  rmapM (runChain ms) (framesIn (byteOrder (fileDescribe host f)) tf (fileBytes tf) (channelCount f) n data) = Ok outs ->
  exists d, pullMem host ms (fileDescribe host f) n data bufs user = Ok (d ++ zskipn (zlen d) user) /\ zlen d = n * (userBytes tv * channelCount v) /\ bytes_ok d = true /\
            framesIn (byteOrder v) tv (userBytes tv) (channelCount v) n d = outs.
Proof.
  intros [F V A [P1 P2] [C1 C2] U M R] B24 N B L LB CB ZU RC. cbn [fst] in R.
  destruct (arrange_steps_read _ _ _ _ _ _ _ _ F V A P1 P2 M U B24) as (MV & o & o' & SO & SO' & ST). destruct (stepsCh_end _ _ _ _ _ _ _ _ _ F V A R) as [TY CH].
  destruct (file_describe_facts host f tf F) as (F1 & U1 & H1). set (f1 := fileDescribe host f) in *.
  assert (L' : zlen data = Z.of_nat (packedSize tf) * (n * channelCount f)) by (rewrite L, fileBytes_val; ring).
  rewrite <- fileBytes_val in RC.
  destruct (framesIn_typed o (byteOrder f1) tf (packedSize tf) (channelCount f) n data SO (or_introl eq_refl) ltac:(lia) ltac:(lia) B L') as (T & ZN & EX & SE). set (frs := framesIn _ tf _ _ n data) in *.
  clearbody frs. pose proof (outs_len _ _ _ RC) as ZO. rewrite ZN in ZO.
  destruct ms as [|m ms].
  - inversion ST as [t0 o0 k0 x0 E1 E2 E3 E4|]; subst. cbn [stepsCh] in CH.
    assert (outs = frs) as ->. { apply rmapM_id. exact RC. }
    rewrite <- CH in *. cbn [pullMem]. unfold put.
    assert (ZZ : zlen data = zlen frs * (userBytes tv * channelCount f)). { rewrite L'. rewrite H, userBytes_val. ring. }
    replace (zlen data <=? zlen user) with true by lia. exists data. split; [reflexivity|]. split; [exact ZZ|]. split; [exact B|].
    destruct (framesIn_exactly o' (byteOrder v) tv (packedSize tv) (channelCount f) data frs SO' (or_introl eq_refl) ltac:(lia)) as [FE _].
    + eapply Forall_impl; [|exact (proj1 T)]. intros a [Ha _]. exact Ha.
    + exact EX.
    + rewrite <- userBytes_val, <- H. rewrite FE. rewrite H. apply (seen_map2 tv _ _ T).
  - destruct bufs as [|b bufs]; [discriminate LB|]. apply Forall_cons_iff in CB as [CB1 CB].
    assert (FI : Forall (fitsIn n (readCapacity (m :: ms) f1 packet own)) (formats (m :: ms) f1)).
    { unfold readCapacity. eapply maxBufSize_fits; try exact TY; try exact F1; try exact U1; try exact N; [|rewrite H1; exact C1|]; [apply (arrange_rows _ _ _ _ _ _ _ A)|]. rewrite R. exact C2. }
    assert (PD : zlen data <= zlen b).
    { cbn [formats] in FI. apply Forall_cons_iff in FI as [(Q & _) _]. destruct (fmt_bps _ _ F1) as [_ BT]. rewrite (BT U1), H1 in Q.
      assert (zlen data <= n * (Z.of_nat (tysize tf) * channelCount f)). { rewrite L'. pose proof (packed_le tf). replace (n * (Z.of_nat (tysize tf) * channelCount f)) with (Z.of_nat (tysize tf) * (n * channelCount f)) by ring. apply Z.mul_le_mono_nonneg_r; [apply Z.mul_nonneg_nonneg; lia|lia]. }
      lia. }
    unfold pullMem, put. replace (zlen data <=? zlen b) with true by lia. cbn [rbind].
    rewrite <- ZN in FI, ZU |- *.
    destruct (runMods_ok host (m :: ms) tf o (packedSize tf) true tv o' (tysize tv) true f1 frs outs (data ++ zskipn (zlen data) b) bufs user (readCapacity (m :: ms) f1 packet own) ST) as (d & D1 & D2 & D3 & D4).
    + discriminate.
    + exact F1.
    + exact U1.
    + exact MV.
    + rewrite H1. exact T.
    + intros _. exact SE.
    + exact FI.
    + exact RC.
    + exists data, (zskipn (zlen data) b). auto.
    + cbn [length] in *. lia.
    + exact CB.
    + rewrite H1, CH, userBytes_val. lia.
    + rewrite H1, CH in D2, D4. exists d. split; [exact D1|]. split; [rewrite D2, userBytes_val; ring|].
      destruct (framesIn_exactly o' (byteOrder v) tv (tysize tv) (channelCount v) d outs SO' (or_intror eq_refl) ltac:(lia)) as [FE FB].
      * eapply Forall_impl; [|exact (proj1 D4)]. intros a [Ha _]. exact Ha.
      * exact D3.
      * split; [exact FB|]. rewrite <- userBytes_val. rewrite ZO, <- ZN in FE. rewrite FE. apply (seen_map2 tv _ _ D4).
Qed.

(** ** Writing *)
Lemma seen_low t s : tyOf s = t -> okSmp s -> seen (packedSize t) s = low24 s.
Proof.
  intros <- O. destruct s as [c z|c z|x|x]; try reflexivity; destruct c; try (cbn [low24 tyOf]; match goal with |- seen (packedSize ?t) ?s = _ => change (packedSize t) with (tysize (tyOf s)) end; apply seen_full; exact O); reflexivity.
Qed.
Lemma seen_low2 t ch frs : typed t ch frs -> map (map (seen (packedSize t))) frs = map (map low24) frs.
Proof.
  intros [T O]. apply map_ext_in. intros fr Hf. rewrite Forall_forall in T, O. apply map_ext_in. intros s Hs. destruct (T fr Hf) as [_ Tf]. specialize (O fr Hf). rewrite Forall_forall in Tf, O. apply seen_low; auto.
Qed.
Lemma last_in {A} (l : list A) d : l <> [] -> In (last l d) l.
Proof. induction l as [|x l IH]; intros H; [congruence|]. destruct l as [|y l]; [left; reflexivity|]. right. apply IH. discriminate. Qed.

Lemma write_piece wrapv host f v matrix ms tf tv n user bufs lastb outs packet own :
  setting wrapv host false f v matrix ms tf tv -> (is24 tv = true -> byteOrder v = host) ->
  0 <= n <= atomicFrames -> bytes_ok user = true -> n * (userBytes tv * channelCount v) <= zlen user ->
  length bufs = pred (length ms) -> Forall (fun b => writeCapacity ms v packet own <= zlen b) (lastb :: bufs) ->
  rmapM (runChain ms) (framesIn (byteOrder v) tv (userBytes tv) (channelCount v) n user) = Ok outs ->
  exists d, pushMem host ms v n user bufs lastb (n * (fileBytes tf * channelCount f)) = Ok d /\ zlen d = n * (fileBytes tf * channelCount f) /\ bytes_ok d = true /\
            framesIn (byteOrder (fileDescribe host f)) tf (fileBytes tf) (channelCount f) n d = map (map low24) outs.
Proof.
  intros [F V A [P1 P2] [C1 C2] U M R] B24 N B L LB CB RC. cbn [fst] in R.
  destruct (arrange_steps_write _ _ _ _ _ _ _ _ V F A P2 P1 M U B24) as (MV & o & o' & x' & SO & SO' & ST). destruct (stepsCh_end _ _ _ _ _ _ _ _ _ V F A R) as [TY CH].
  set (du := zfirstn (n * (userBytes tv * channelCount v)) user).
  assert (NN : 0 <= n * (userBytes tv * channelCount v)) by (apply Z.mul_nonneg_nonneg; [lia|]; destruct tv as [[]|[]| |]; cbn [userBytes]; lia).
  assert (LD : zlen du = Z.of_nat (tysize tv) * (n * channelCount v)). { unfold du. rewrite zlen_firstn by lia. rewrite userBytes_val. rewrite Z.min_l by lia. ring. }
  assert (BD : bytes_ok du = true). { unfold du, zfirstn. apply bytes_ok_Forall. apply bytes_ok_Forall in B. rewrite <- (firstn_skipn (Z.to_nat (n * (userBytes tv * channelCount v))) user) in B. apply Forall_app in B. tauto. }
  assert (EU : user = du ++ zskipn (n * (userBytes tv * channelCount v)) user) by (symmetry; apply zfirstn_skipn).
  assert (FU : framesIn (byteOrder v) tv (userBytes tv) (channelCount v) n user = framesIn (byteOrder v) tv (userBytes tv) (channelCount v) n du).
  { unfold framesIn. f_equal. f_equal. destruct (cells_of (tysize tv) (Z.to_nat (n * channelCount v)) du) as (G1 & G2 & G3); [unfold zlen in LD; assert (0 <= n * channelCount v) by (apply Z.mul_nonneg_nonneg; lia); nia|exact BD|].
    rewrite <- userBytes_val, Nat2Z.id. rewrite EU at 1. rewrite <- G2 at 1. rewrite <- G3 at 1. apply groups_concat. apply isCells_len. exact G1. }
  rewrite FU in RC. clear FU. rewrite <- userBytes_val in RC.
  destruct (framesIn_typed o (byteOrder v) tv (tysize tv) (channelCount v) n du SO (or_intror eq_refl) ltac:(lia) ltac:(lia) BD LD) as (T & ZN & EX & SE). set (frs := framesIn _ tv _ _ n du) in *.
  clearbody frs. pose proof (outs_len _ _ _ RC) as ZO. rewrite ZN in ZO.
  assert (TO : typed tf (channelCount f) outs /\ exists d, (match ms with [] => Ok user | _ => runMods host ms v n user bufs lastb end) = Ok d /\ n * (fileBytes tf * channelCount f) <= zlen d /\ exactly o' tf (packedSize tf) (concat outs) (zfirstn (n * (fileBytes tf * channelCount f)) d)).
  { destruct ms as [|m ms].
    - assert (EQ : tv = tf /\ o = o' /\ tysize tv = packedSize tf) by (inversion ST; repeat split; congruence). destruct EQ as (-> & EO & ET). cbn [stepsCh] in CH. assert (outs = frs) as -> by (apply rmapM_id; exact RC). rewrite <- CH in *. split; [exact T|]. exists user. split; [reflexivity|].
      assert (ZE : userBytes tf = fileBytes tf) by (rewrite <- userBytes_val, <- fileBytes_val; congruence). rewrite <- ZE. split; [exact L|]. fold du. rewrite <- EO, <- ET. exact EX.
    - assert (FI : Forall (fitsIn n (writeCapacity (m :: ms) v packet own)) (formats (m :: ms) v)).
      { unfold writeCapacity. eapply maxBufSize_fits; try exact TY; try exact V; try exact U; try exact N; [|exact C2|]; [apply (arrange_rows _ _ _ _ _ _ _ A)|]. rewrite R. exact C1. }
      apply Forall_cons_iff in CB as [CB1 CB].
      destruct (formats_facts (m :: ms) tv tf v _ TY V U (arrange_rows _ _ _ _ _ _ _ A)) as (_ & LC & LT & LU).
      assert (LF : n * (Z.of_nat (tysize tf) * channelCount f) <= zlen lastb).
      { pose proof (proj1 (Forall_forall _ _) FI _ (last_in (formats (m :: ms) v) v ltac:(discriminate))) as (Q & _). destruct (fmt_bps _ _ LT) as [_ BT]. rewrite (BT LU), LC, CH in Q. lia. }
      assert (LF' : Z.of_nat (packedSize tf) * (n * channelCount f) <= Z.of_nat (tysize tf) * (n * channelCount f)) by (pose proof (packed_le tf); apply Z.mul_le_mono_nonneg_r; [apply Z.mul_nonneg_nonneg; lia|lia]).
      rewrite <- ZN in FI, LF, LF' |- *.
      destruct (runMods_ok host (m :: ms) tv o (tysize tv) true tf o' (packedSize tf) x' v frs outs user bufs lastb (writeCapacity (m :: ms) v packet own) ST) as (d & D1 & D2 & D3 & D4).
      + discriminate.
      + exact V.
      + exact U.
      + exact MV.
      + exact T.
      + intros _. exact SE.
      + exact FI.
      + exact RC.
      + exists du, (zskipn (n * (userBytes tv * channelCount v)) user). split; [exact EU|exact EX].
      + cbn [length] in *. lia.
      + exact CB.
      + rewrite CH. lia.
      + rewrite CH in D2, D4. split; [exact D4|]. exists (d ++ zskipn (zlen d) lastb). split; [exact D1|].
        assert (ZE : zlen frs * (fileBytes tf * channelCount f) = zlen d) by (rewrite D2, fileBytes_val; ring). rewrite ZE. split; [rewrite zlen_app; pose proof (zlen_nonneg (zskipn (zlen d) lastb)); lia|]. rewrite zfirstn_exact by reflexivity. exact D3. }
  destruct TO as (TO & d & RD & LD2 & EX2). unfold pushMem. rewrite RD. cbn [rbind]. replace (n * (fileBytes tf * channelCount f) <=? zlen d) with true by lia.
  assert (NN2 : 0 <= n * (fileBytes tf * channelCount f)) by (apply Z.mul_nonneg_nonneg; [lia|]; destruct tf as [[]|[]| |]; cbn [fileBytes]; lia).
  exists (zfirstn (n * (fileBytes tf * channelCount f)) d). split; [reflexivity|]. split; [rewrite zlen_firstn by lia; lia|].
  destruct (framesIn_exactly o' (byteOrder (fileDescribe host f)) tf (packedSize tf) (channelCount f) (zfirstn (n * (fileBytes tf * channelCount f)) d) outs SO' (or_introl eq_refl) ltac:(lia)) as [FE FB].
  - eapply Forall_impl; [|exact (proj1 TO)]. intros a [Ha _]. exact Ha.
  - exact EX2.
  - split; [exact FB|]. rewrite ZO, fileBytes_val in FE. rewrite FE. apply (seen_low2 tf _ _ TO).
Qed.

(** * C67 *)

(** The buffers [ModuleState::setup] allocates hold 1024 frames of every chunk of the chain, whatever the formats, the
    channel matrix, the mappings and the codec: with fewer than 2^18 channels no size wraps. *)
Theorem C67_buffers_hold_1024_frames :
  forall wrapv host isReading f v matrix ms tf tv packet own n g,
    setting wrapv host isReading f v matrix ms tf tv -> 0 <= n <= 1024 ->
    let f1 := fileDescribe host f in
    In g (if isReading then formats ms f1 else formats ms v) ->
    n * bytesPerFrame true g <= (if isReading then readCapacity ms f1 packet own else writeCapacity ms v packet own).
Proof.
  intros wrapv host rd f v matrix ms tf tv packet own n g S N f1 G. destruct S as [F V A _ [C1 C2] U _ R]. destruct (file_describe_facts host f tf F) as (F1 & U1 & H1). fold f1 in F1, U1, H1.
  destruct rd.
  - destruct (stepsCh_end _ _ _ _ _ _ _ _ _ F V A R) as [TY CH]. pose proof (arrange_rows _ _ _ _ _ _ _ A) as AR. rewrite R in AR.
    assert (C1' : 1 <= channelCount f1 < 2 ^ 18) by (rewrite H1; exact C1).
    pose proof (maxBufSize_fits ms tf tv f1 (channelCount v) f1 packet own n TY F1 U1 AR C1' C2 N) as FI. rewrite Forall_forall in FI. destruct (FI g G) as (Q & _ & _).
    destruct (formats_facts ms tf tv f1 _ TY F1 U1 AR) as [FF _]. rewrite Forall_forall in FF. destruct (FF g G) as ((u & Fu) & Cu & Hc).
    rewrite (user_frame g u Fu Cu) by (destruct Hc as [-> | ->]; assumption). destruct (fmt_bps _ _ Fu) as [_ BT]. rewrite (BT Cu), userBytes_val in Q. exact Q.
  - destruct (stepsCh_end _ _ _ _ _ _ _ _ _ V F A R) as [TY CH]. pose proof (arrange_rows _ _ _ _ _ _ _ A) as AR. rewrite R in AR.
    pose proof (maxBufSize_fits ms tv tf v (channelCount f) (last (formats ms v) v) packet own n TY V U AR C2 C1 N) as FI. rewrite Forall_forall in FI. destruct (FI g G) as (Q & _ & _).
    destruct (formats_facts ms tv tf v _ TY V U AR) as [FF _]. rewrite Forall_forall in FF. destruct (FF g G) as ((u & Fu) & Cu & Hc).
    rewrite (user_frame g u Fu Cu) by (destruct Hc as [-> | ->]; assumption). destruct (fmt_bps _ _ Fu) as [_ BT]. rewrite (BT Cu), userBytes_val in Q. exact Q.
Qed.
Print Assumptions C67_buffers_hold_1024_frames.

(** One pull of at most 1024 frames, for any file contents for which the conversions are defined (C59): no buffer is
    overrun, exactly the requested frames are stored and the rest of the caller's buffer is left alone. *)
Theorem C67_read_stays_inside :
  forall wrapv host f v matrix ms tf tv n data bufs user outs packet own,
    setting wrapv host true f v matrix ms tf tv -> (is24 tv = true -> byteOrder v = host) ->
    0 <= n <= 1024 -> bytes_ok data = true -> zlen data = n * (fileBytes tf * channelCount f) ->
    length bufs = length ms -> Forall (fun b => zlen b = readCapacity ms (fileDescribe host f) packet own) bufs ->
    n * bytesPerFrame true v <= zlen user ->
    rmapM (runChain ms) (framesIn (byteOrder (fileDescribe host f)) tf (fileBytes tf) (channelCount f) n data) = Ok outs ->
    exists d, pullMem host ms (fileDescribe host f) n data bufs user = Ok (d ++ zskipn (zlen d) user) /\ zlen d = n * bytesPerFrame true v.
Proof.
  intros wrapv host f v matrix ms tf tv n data bufs user outs packet own S B24 N B L LB CB ZU RC. pose proof (user_frame v tv (s_user _ _ _ _ _ _ _ _ _ S) (s_uncompressed _ _ _ _ _ _ _ _ _ S) (proj2 (s_channels _ _ _ _ _ _ _ _ _ S))) as E. rewrite E in ZU |- *.
  assert (CB' : Forall (fun b => readCapacity ms (fileDescribe host f) packet own <= zlen b) bufs) by (eapply Forall_impl; [|exact CB]; intros a Ha; cbv beta in Ha; lia).
  destruct (read_piece wrapv host f v matrix ms tf tv n data bufs user outs packet own S B24 N B L LB CB' ZU RC) as (d & D1 & D2 & _). exists d. auto.
Qed.
Print Assumptions C67_read_stays_inside.

(** One push of at most 1024 frames: the file module finds its [n] frames in its buffer. *)
Theorem C67_write_stays_inside :
  forall wrapv host f v matrix ms tf tv n user bufs lastb outs packet own,
    setting wrapv host false f v matrix ms tf tv -> (is24 tv = true -> byteOrder v = host) ->
    0 <= n <= 1024 -> bytes_ok user = true -> n * bytesPerFrame true v <= zlen user ->
    length bufs = pred (length ms) -> Forall (fun b => zlen b = writeCapacity ms v packet own) (lastb :: bufs) ->
    rmapM (runChain ms) (framesIn (byteOrder v) tv (userBytes tv) (channelCount v) n user) = Ok outs ->
    exists d, pushMem host ms v n user bufs lastb (n * (fileBytes tf * channelCount f)) = Ok d /\ zlen d = n * (fileBytes tf * channelCount f).
Proof.
  intros wrapv host f v matrix ms tf tv n user bufs lastb outs packet own S B24 N B ZU LB CB RC. pose proof (user_frame v tv (s_user _ _ _ _ _ _ _ _ _ S) (s_uncompressed _ _ _ _ _ _ _ _ _ S) (proj2 (s_channels _ _ _ _ _ _ _ _ _ S))) as E. rewrite E in ZU.
  assert (CB' : Forall (fun b => writeCapacity ms v packet own <= zlen b) (lastb :: bufs)) by (eapply Forall_impl; [|exact CB]; intros a Ha; cbv beta in Ha; lia).
  destruct (write_piece wrapv host f v matrix ms tf tv n user bufs lastb outs packet own S B24 N B ZU LB CB' RC) as (d & D1 & D2 & _). exists d. auto.
Qed.
Print Assumptions C67_write_stays_inside.

(** * C68 *)

(** Appending frames. *)
Lemma groups_app {A} k a b : forall (l1 l2 : list A), length l1 = (a * k)%nat -> groups k (a + b) (l1 ++ l2) = groups k a l1 ++ groups k b l2.
Proof.
  induction a as [|a IH]; intros l1 l2 H; [destruct l1; [reflexivity|discriminate]|]. cbn [Nat.add groups app]. rewrite firstn_app, skipn_app.
  replace (k - length l1)%nat with 0%nat by lia. cbn [firstn skipn]. rewrite app_nil_r. f_equal. apply IH. rewrite skipn_length. lia.
Qed.
Lemma framesIn_app o t k ch a b d1 d2 : 0 <= k -> 0 <= ch -> 0 <= a -> 0 <= b -> zlen d1 = a * (k * ch) -> framesIn o t k ch (a + b) (d1 ++ d2) = framesIn o t k ch a d1 ++ framesIn o t k ch b d2.
Proof.
  intros K C A B L. unfold framesIn. replace (Z.to_nat ((a + b) * ch)) with (Z.to_nat (a * ch) + Z.to_nat (b * ch))%nat by nia. unfold zlen in L.
  assert (L1 : length d1 = (Z.to_nat (a * ch) * Z.to_nat k)%nat) by nia.
  rewrite groups_app by exact L1. rewrite map_app. rewrite Z2Nat.inj_add by lia. apply groups_app. rewrite map_length. destruct (groups_len (Z.to_nat k) (Z.to_nat (a * ch)) d1 L1) as (_ & _ & ->). apply Z2Nat.inj_mul; lia.
Qed.

(** A call to afReadFrames in pieces: [pulls] lists for each piece the number of frames, the bytes the file module delivers
    and the contents of the buffers. *)
Definition total (pulls : list (Z * list Z * list (list Z))) : Z := fold_right (fun p a => fst (fst p) + a) 0 pulls.
Definition delivered (pulls : list (Z * list Z * list (list Z))) : list Z := concat (map (fun p => snd (fst p)) pulls).

(** The caller's bytes, read in the layout of the virtual format (samples in 1, 2, 4 or 8 bytes, 24-bit ones in 4, in the
    virtual byte order, frame after frame), are the file's frames, read in the file's layout, each passed through the chain
    of C59.  The bytes after them keep their values. *)
Theorem C68_read_layout :
  forall wrapv host f v matrix ms tf tv packet own pulls samples outs,
    setting wrapv host true f v matrix ms tf tv -> (is24 tv = true -> byteOrder v = host) ->
    Forall (fun p => let '(n, data, bufs) := p in
       0 <= n <= 1024 /\ bytes_ok data = true /\ zlen data = n * (fileBytes tf * channelCount f) /\
       length bufs = length ms /\ Forall (fun b => zlen b = readCapacity ms (fileDescribe host f) packet own) bufs) pulls ->
    total pulls * (userBytes tv * channelCount v) <= zlen samples ->
    rmapM (runChain ms) (framesIn (byteOrder (fileDescribe host f)) tf (fileBytes tf) (channelCount f) (total pulls) (delivered pulls)) = Ok outs ->
    exists d, readMem host ms (fileDescribe host f) v pulls 0 samples = Ok (d ++ zskipn (zlen d) samples) /\
      zlen d = total pulls * (userBytes tv * channelCount v) /\
      framesIn (byteOrder v) tv (userBytes tv) (channelCount v) (total pulls) d = outs.
Proof.
  intros wrapv host f v matrix ms tf tv packet own pulls samples outs S B24 P Z R. set (f1 := fileDescribe host f) in *.
  pose proof (user_frame v tv (s_user _ _ _ _ _ _ _ _ _ S) (s_uncompressed _ _ _ _ _ _ _ _ _ S) (proj2 (s_channels _ _ _ _ _ _ _ _ _ S))) as E.
  set (F := userBytes tv * channelCount v) in *. destruct (s_channels _ _ _ _ _ _ _ _ _ S) as [C1 C2].
  assert (F0 : 0 <= F) by (unfold F; destruct tv as [[]|[]| |]; cbn [userBytes]; lia).
  assert (G : forall pulls pre user outs,
     Forall (fun p => let '(n, data, bufs) := p in
       0 <= n <= 1024 /\ bytes_ok data = true /\ zlen data = n * (fileBytes tf * channelCount f) /\
       length bufs = length ms /\ Forall (fun b => zlen b = readCapacity ms f1 packet own) bufs) pulls ->
     forall vf, 0 <= vf -> zlen pre = F * vf -> total pulls * F <= zlen user ->
     rmapM (runChain ms) (framesIn (byteOrder f1) tf (fileBytes tf) (channelCount f) (total pulls) (delivered pulls)) = Ok outs ->
     0 <= total pulls /\ exists d, readMem host ms f1 v pulls vf (pre ++ user) = Ok (pre ++ d ++ zskipn (zlen d) user) /\ zlen d = total pulls * F /\
       framesIn (byteOrder v) tv (userBytes tv) (channelCount v) (total pulls) d = outs).
  { clear P Z R pulls samples outs. induction pulls as [|[[n data] bufs] ps IH]; intros pre user outs P vf V0 V Z R.
    - split; [cbn; lia|]. exists []. cbn [readMem app]. change (zlen (@nil BinNums.Z)) with 0. rewrite zskipn_0 by lia. split; [reflexivity|]. split; [reflexivity|].
      cbn [total delivered fold_right map concat] in *. unfold framesIn in *. cbn [Z.mul Z.to_nat groups] in *. cbn in R. congruence.
    - apply Forall_cons_iff in P as [(N & B & L & LB & CB) P]. cbn [total fold_right fst] in *. fold (total ps) in *.
      assert (T0 : 0 <= total ps). { clear -P. induction ps as [|[[n d] b] ps IH]; [cbn; lia|]. apply Forall_cons_iff in P as [(N & _) P]. cbn [total fold_right fst]. fold (total ps). specialize (IH P). lia. }
      split; [lia|].
      assert (FB : 0 <= fileBytes tf) by (destruct tf as [[]|[]| |]; cbn; lia).
      change (delivered ((n, data, bufs) :: ps)) with (data ++ delivered ps) in R. rewrite framesIn_app in R by (exact L || lia). apply rmapM_app in R as (o1 & o2 & R1 & R2 & ->).
      assert (ZU : n * F <= zlen user) by nia.
      assert (CB' : Forall (fun b => readCapacity ms f1 packet own <= zlen b) bufs) by (eapply Forall_impl; [|exact CB]; intros a Ha; cbv beta in Ha; lia).
      destruct (read_piece wrapv host f v matrix ms tf tv n data bufs user o1 packet own S B24 N B L LB CB' ZU R1) as (d & D1 & D2 & D3 & D4). fold F in D2.
      cbn [readMem]. rewrite E. pose proof (zlen_nonneg user). rewrite zlen_app.
      replace ((0 <=? F * vf) && (F * vf <=? zlen pre + zlen user)) with true by (symmetry; apply andb_true_iff; split; [apply Z.leb_le; apply Z.mul_nonneg_nonneg; lia|lia]).
      rewrite <- V. rewrite zskipn_exact, zfirstn_exact by reflexivity. fold f1 in D1. rewrite D1. cbn [rbind].
      destruct (IH (pre ++ d) (zskipn (zlen d) user) o2 P (vf + n)) as (_ & d' & G1 & G2 & G3).
      + lia.
      + rewrite zlen_app, V, D2. ring.
      + rewrite zlen_skipn by apply zlen_nonneg. rewrite D2. lia.
      + exact R2.
      + exists (d ++ d'). rewrite <- app_assoc in G1. rewrite G1. split.
        * f_equal. rewrite <- !app_assoc. rewrite zlen_app. rewrite zskipn_zskipn by (apply zlen_nonneg). do 3 f_equal.
        * split; [rewrite zlen_app, D2, G2; ring|]. rewrite framesIn_app; [|destruct tv as [[]|[]| |]; cbn; lia|lia|lia|lia|exact D2]. rewrite D4, G3. reflexivity. }
  destruct (G pulls [] samples outs P 0 ltac:(lia) ltac:(change (zlen (@nil BinNums.Z)) with 0; lia) Z R) as (_ & d & D1 & D2 & D3). exists d. auto.
Qed.
Print Assumptions C68_read_layout.

(** The bytes the file module gets, read in the file's layout, are the caller's frames, read in the virtual layout, passed
    through the chain; of 24-bit samples the low 24 bits are kept. *)
Theorem C68_write_layout :
  forall wrapv host f v matrix ms tf tv n user bufs lastb outs packet own,
    setting wrapv host false f v matrix ms tf tv -> (is24 tv = true -> byteOrder v = host) ->
    0 <= n <= 1024 -> bytes_ok user = true -> n * bytesPerFrame true v <= zlen user ->
    length bufs = pred (length ms) -> Forall (fun b => zlen b = writeCapacity ms v packet own) (lastb :: bufs) ->
    rmapM (runChain ms) (framesIn (byteOrder v) tv (userBytes tv) (channelCount v) n user) = Ok outs ->
    exists d, pushMem host ms v n user bufs lastb (n * (fileBytes tf * channelCount f)) = Ok d /\ zlen d = n * (fileBytes tf * channelCount f) /\
      framesIn (byteOrder (fileDescribe host f)) tf (fileBytes tf) (channelCount f) n d = map (map low24) outs.
Proof.
  intros wrapv host f v matrix ms tf tv n user bufs lastb outs packet own S B24 N B ZU LB CB RC. pose proof (user_frame v tv (s_user _ _ _ _ _ _ _ _ _ S) (s_uncompressed _ _ _ _ _ _ _ _ _ S) (proj2 (s_channels _ _ _ _ _ _ _ _ _ S))) as E. rewrite E in ZU.
  assert (CB' : Forall (fun b => writeCapacity ms v packet own <= zlen b) (lastb :: bufs)) by (eapply Forall_impl; [|exact CB]; intros a Ha; cbv beta in Ha; lia).
  destruct (write_piece wrapv host f v matrix ms tf tv n user bufs lastb outs packet own S B24 N B ZU LB CB' RC) as (d & D1 & D2 & _ & D4). exists d. auto.
Qed.
Print Assumptions C68_write_layout.

(** ** Concrete cases: a 16-bit big-endian stereo file read as native float mono, and a 24-bit one written from it. *)
Definition exF : format := {| sampleFormat := TWOSCOMP; sampleWidth := 16; channelCount := 2; byteOrder := BigEndian; compressed := false; pcm := signedMapping kInt16 |}.
Definition exF24 : format := {| sampleFormat := TWOSCOMP; sampleWidth := 24; channelCount := 2; byteOrder := BigEndian; compressed := false; pcm := signedMapping kInt24 |}.
Definition exV : format := {| sampleFormat := FLOAT; sampleWidth := 32; channelCount := 1; byteOrder := LittleEndian; compressed := false; pcm := floatMapping |}.
Definition chainOf (r : res (option (list module))) : list module := match r with Ok (Some l) => l | _ => [] end.
Definition exMs : list module := chainOf (arrange true LittleEndian true exF exV None).
Definition exMsW : list module := chainOf (arrange true LittleEndian false exV exF24 None).
Ltac setting_tac := constructor; cbn; try reflexivity; try (vm_compute; reflexivity); try (repeat split; reflexivity); try lia; try exact I.
Example C67_setting_read_satisfiable : setting true LittleEndian true exF exV None exMs (TI kInt16) TF.
Proof. setting_tac. Qed.
Example C67_setting_write_satisfiable : setting true LittleEndian false exF24 exV None exMsW (TI kInt24) TF.
Proof. setting_tac. Qed.
(** The chains have several converters; the bytes below go all the way through them. *)
Definition exData : list Z := [64; 0; 32; 0; 192; 0; 192; 0].
Definition exCap : Z := readCapacity exMs exF None None.
Example C67_read_satisfiable :
  zlen exMs = 4 /\ exCap = 8192 /\
  exists outs, rmapM (runChain exMs) (framesIn BigEndian (TI kInt16) 2 2 2 exData) = Ok outs /\
  pullMem LittleEndian exMs exF 2 exData (repeat (repeat 0 100) 4) (repeat 7 9) = Ok [0; 0; 192; 62; 0; 0; 0; 191; 7] /\
  framesIn LittleEndian TF 4 1 2 [0; 0; 192; 62; 0; 0; 0; 191] = outs.
Proof. split; [vm_compute; reflexivity|]. split; [vm_compute; reflexivity|]. eexists. split; [vm_compute; reflexivity|]. split; vm_compute; reflexivity. Qed.
Example C67_write_satisfiable :
  exists outs, rmapM (runChain exMsW) (framesIn LittleEndian TF 4 1 1 [0; 0; 192; 62]) = Ok outs /\
  pushMem LittleEndian exMsW exV 1 [0; 0; 192; 62] (repeat (repeat 0 100) (pred (length exMsW))) (repeat 0 100) 6 = Ok [48; 0; 0; 48; 0; 0] /\
  framesIn BigEndian (TI kInt24) 3 2 1 [48; 0; 0; 48; 0; 0] = map (map low24) outs.
Proof. eexists. split; [vm_compute; reflexivity|]. split; vm_compute; reflexivity. Qed.

(** ** What does not hold *)

(** After a seek into the middle of a packet, afReadFrames (data.cpp:183-200) pulls the frames before the position in one
    go, up to a packet less one, and allocates only the caller's side for them.  The full claim: the buffers also hold
    those.  A 16-bit stereo ALAC file (4096 frames per packet, ALAC.cpp:273-277) read as float mono: 4000 frames after the
    conversion to float take 32000 bytes, the buffers have 24577. *)
Lemma intToFloat_bound host c f n inb outb r : runMem host (MIntToFloat c false) f n inb outb = Ok r -> 4 * s32 (u64 (n * u64 (channelCount f))) <= zlen outb.
Proof.
  unfold runMem. set (count := s32 _). cbn [inTy]. unfold mapCells. destruct (_ <=? _); [|discriminate].
  set (gs := groups _ _ inb). destruct (rmapM _ gs) as [os| | |] eqn:E; try discriminate. cbn [rbind]. unfold put. destruct (zlen (concat os) <=? zlen outb) eqn:L; [|discriminate]. intros _.
  assert (C4 : Forall (fun c => length c = 4%nat) os).
  { eapply (rmapM_Forall _ (fun _ => True)); [exact E|apply Forall_forall; auto|]. intros a b _ H. cbv beta in H. cbn [dec run1] in H. unfold rmap in H. rewrite codenum_refl in H. cbn [rbind] in H. assert (b = enc host (SF (fOfZ (sN (8 * zlen a) (load host a))))) as -> by congruence. apply store_len. }
  apply (zlen_concat_cells 4) in C4. assert (LG : length os = Z.to_nat count). { rewrite (rmapM_len _ _ _ E). unfold gs. clear. revert inb. generalize (tysize (TI c)). intros k. generalize (Z.to_nat count); intros q; induction q as [|q IH]; intros l; [reflexivity|]. cbn [groups length]. rewrite IH. reflexivity. }
  unfold zlen in C4 at 2. rewrite LG in C4. lia.
Qed.
Lemma groups_repeat {A} (x : A) k n : groups k n (repeat x (n * k)) = repeat (repeat x k) n.
Proof.
  induction n as [|n IH]; [reflexivity|]. cbn [groups repeat Nat.mul]. rewrite repeat_app. rewrite firstn_app, skipn_app, repeat_length, Nat.sub_diag. cbn [firstn skipn]. rewrite app_nil_r.
  rewrite firstn_all2, skipn_all2 by (rewrite repeat_length; lia). cbn [app]. rewrite IH. reflexivity.
Qed.
Lemma map_repeat' {A B} (f : A -> B) x n : map f (repeat x n) = repeat (f x) n.
Proof. induction n as [|n IH]; cbn; [reflexivity|]. rewrite IH. reflexivity. Qed.
Lemma rmapM_repeat {A B} (f : A -> res B) a b n : f a = Ok b -> rmapM f (repeat a n) = Ok (repeat b n).
Proof. intros H. induction n as [|n IH]; [reflexivity|]. cbn [repeat rmapM]. rewrite H. cbn [rbind]. rewrite IH. reflexivity. Qed.
Definition alacF : format := {| sampleFormat := TWOSCOMP; sampleWidth := 16; channelCount := 2; byteOrder := BigEndian; compressed := true; pcm := signedMapping kInt16 |}.
Definition alacMs : list module := chainOf (arrange true LittleEndian true alacF exV None).
Definition alacPacketSize (frames width channels : Z) : Z := frames * channels * ((10 + width) / 8) + 1.
Theorem C67_seek_into_packet_refuted :
  ~ (forall wrapv host f v matrix ms tf tv n data bufs user outs packet own,
      setting wrapv host true f v matrix ms tf tv -> (is24 tv = true -> byteOrder v = host) ->
      compressed f = true -> 0 <= n < packet -> own = alacPacketSize packet (sampleWidth f) (channelCount f) ->
      bytes_ok data = true -> zlen data = n * (fileBytes tf * channelCount f) ->
      length bufs = length ms -> Forall (fun b => zlen b = readCapacity ms (fileDescribe host f) (Some packet) (Some own)) bufs ->
      n * bytesPerFrame true v <= zlen user ->
      rmapM (runChain ms) (framesIn (byteOrder (fileDescribe host f)) tf (fileBytes tf) (channelCount f) n data) = Ok outs ->
      exists u, pullMem host ms (fileDescribe host f) n data bufs user = Ok u).
Proof.
  intros H. set (frame := [SI kInt16 0; SI kInt16 0]).
  assert (RF : exists out, runChain alacMs frame = Ok out) by (eexists; vm_compute; reflexivity). destruct RF as [out RF].
  assert (N4 : exists N : nat, Z.of_nat N = 4000) by (exists (Z.to_nat 4000); lia). destruct N4 as [N EN].
  assert (CAP : exists K : nat, Z.of_nat K = readCapacity alacMs (fileDescribe LittleEndian alacF) (Some 4096) (Some 24577) /\ Z.of_nat K = 24577). { exists (Z.to_nat 24577). split; [vm_compute; reflexivity|lia]. }
  destruct CAP as (K & CAP & CAPV).
  assert (MS : exists m ms', alacMs = MIntToFloat kInt16 false :: m :: ms' /\ length ms' = 1%nat) by (do 2 eexists; split; vm_compute; reflexivity).
  destruct MS as (m & ms' & MS & ML).
  specialize (H true LittleEndian alacF exV None alacMs (TI kInt16) TF 4000 (repeat 0 (N * 2 * 2)) (repeat (repeat 0 K) 3) (repeat 0 (N * 4)) (repeat out N) 4096 24577).
  destruct H as [u H].
  - setting_tac.
  - discriminate.
  - reflexivity.
  - lia.
  - reflexivity.
  - apply bytes_ok_Forall. apply Forall_forall. intros x Hx. apply repeat_spec in Hx. subst x. reflexivity.
  - unfold zlen. rewrite repeat_length. cbn [fileBytes channelCount alacF]. lia.
  - reflexivity.
  - rewrite <- CAP. apply Forall_forall. intros x Hx. apply repeat_spec in Hx. subst x. unfold zlen. rewrite repeat_length. reflexivity.
  - unfold zlen. rewrite repeat_length. change (bytesPerFrame true exV) with 4. lia.
  - unfold framesIn. change (Z.to_nat (fileBytes (TI kInt16))) with 2%nat. change (Z.to_nat (channelCount alacF)) with 2%nat. change (channelCount alacF) with 2.
    replace (Z.to_nat 4000) with N by lia. replace (Z.to_nat (4000 * 2)) with (N * 2)%nat by lia. rewrite groups_repeat, map_repeat', groups_repeat. apply rmapM_repeat. exact RF.
  - rewrite MS in H. cbn [pullMem repeat] in H. destruct (put _ _) as [c| | |]; try discriminate H. cbn [rbind runMods] in H.
    destruct (runMem LittleEndian (MIntToFloat kInt16 false) (fileDescribe LittleEndian alacF) 4000 c (repeat 0 K)) as [o| | |] eqn:E; try discriminate H.
    apply intToFloat_bound in E. unfold zlen in E. rewrite repeat_length, CAPV in E. revert E. vm_compute. intros E. apply E. reflexivity.
Qed.
Print Assumptions C67_seek_into_packet_refuted.

(** The sizes are computed as int: with 2^20 channels of 16 bits, 1024 frames are 2^31 bytes, the size wraps and nothing is
    allocated.  The full claim, without the bound on the channels: *)
Definition wideF : format := {| sampleFormat := TWOSCOMP; sampleWidth := 16; channelCount := 2 ^ 20; byteOrder := BigEndian; compressed := false; pcm := signedMapping kInt16 |}.
Definition wideV : format := {| sampleFormat := TWOSCOMP; sampleWidth := 16; channelCount := 2 ^ 20; byteOrder := LittleEndian; compressed := false; pcm := signedMapping kInt16 |}.
Theorem C67_many_channels_refuted :
  ~ (forall host f v ms tf tv n g,
      fmtTy f = Some tf -> fmtTy v = Some tv -> compressed f = false -> compressed v = false -> 1 <= channelCount f -> channelCount v = channelCount f ->
      arrange true host true f v None = Ok (Some ms) -> 0 <= n <= 1024 -> In g (formats ms f) ->
      n * bytesPerFrame true g <= readCapacity ms f None None).
Proof.
  intros H. specialize (H LittleEndian wideF wideV [MSwap] (TI kInt16) (TI kInt16) 1 wideF eq_refl eq_refl eq_refl eq_refl).
  assert (A : arrange true LittleEndian true wideF wideV None = Ok (Some [MSwap])) by (lazy; reflexivity).
  specialize (H ltac:(cbn; lia) eq_refl A ltac:(lia) (or_introl eq_refl)). revert H. vm_compute. intros H. apply H. reflexivity.
Qed.
Print Assumptions C67_many_channels_refuted.

(** A virtual format with 24-bit samples in the byte order that is not the machine's: the swap takes the samples for 3
    bytes wide (SimpleModule.h:56-79 uses bytesPerSample(false)) although they have been expanded to 4. *)
Definition f24 : format := {| sampleFormat := TWOSCOMP; sampleWidth := 24; channelCount := 1; byteOrder := LittleEndian; compressed := false; pcm := signedMapping kInt24 |}.
Definition v24 : format := {| sampleFormat := TWOSCOMP; sampleWidth := 24; channelCount := 1; byteOrder := BigEndian; compressed := false; pcm := signedMapping kInt24 |}.
Theorem C68_24_bit_swapped_refuted :
  ~ (forall wrapv host f v matrix ms tf tv n data bufs user outs packet own,
      setting wrapv host true f v matrix ms tf tv ->
      0 <= n <= 1024 -> bytes_ok data = true -> zlen data = n * (fileBytes tf * channelCount f) ->
      length bufs = length ms -> Forall (fun b => readCapacity ms (fileDescribe host f) packet own <= zlen b) bufs ->
      n * bytesPerFrame true v <= zlen user ->
      rmapM (runChain ms) (framesIn (byteOrder (fileDescribe host f)) tf (fileBytes tf) (channelCount f) n data) = Ok outs ->
      exists d, pullMem host ms (fileDescribe host f) n data bufs user = Ok (d ++ zskipn (zlen d) user) /\ zlen d = n * bytesPerFrame true v /\
        framesIn (byteOrder v) tv (userBytes tv) (channelCount v) n d = outs).
Proof.
  intros H. assert (BIG : exists b, zlen b = 4096 /\ exists b', b = repeat 0 3 ++ [0] ++ b').
  { exists (repeat 0 3 ++ [0] ++ repeat 0 (Z.to_nat 4092)). split; [|eauto]. rewrite !zlen_app. unfold zlen. rewrite !repeat_length. cbn [length]. lia. }
  destruct BIG as (b & LB & b' & EB).
  specialize (H true LittleEndian f24 v24 None [MExpand3 true; MSwap] (TI kInt24) (TI kInt24) 1 [1; 2; 3] [b; b] [9; 9; 9; 9] [[SI kInt24 197121]] None None).
  destruct H as (d & H1 & HL & H2).
  - setting_tac.
  - lia.
  - reflexivity.
  - reflexivity.
  - reflexivity.
  - assert (CAP : readCapacity [MExpand3 true; MSwap] (fileDescribe LittleEndian f24) None None <= zlen b) by (rewrite LB; vm_compute; discriminate). repeat constructor; exact CAP.
  - vm_compute. discriminate.
  - vm_compute. reflexivity.
  - assert (E : pullMem LittleEndian [MExpand3 true; MSwap] (fileDescribe LittleEndian f24) 1 [1; 2; 3] [b; b] [9; 9; 9; 9] = Ok [3; 2; 1; 9]).
    { assert (PUT : forall d l, zlen d <= 4 -> put d (repeat 0 3 ++ [0] ++ l) = Ok (d ++ zskipn (zlen d) (repeat 0 3 ++ [0] ++ l))).
      { intros d0 l Hd. unfold put. replace (zlen d0 <=? _) with true; [reflexivity|]. rewrite !zlen_app. pose proof (zlen_nonneg l). change (zlen (repeat 0 3)) with 3. change (zlen [0]) with 1. lia. }
      rewrite EB. unfold pullMem. rewrite PUT by (vm_compute; discriminate). cbn [rbind]. unfold runMods. change (zskipn (zlen [1; 2; 3]) (repeat 0 3 ++ [0] ++ b')) with (0 :: b').
      unfold runMem at 1. change (s32 (u64 (1 * u64 (channelCount (fileDescribe LittleEndian f24))))) with 1. unfold mapCells at 1. rewrite zlen_app. pose proof (zlen_nonneg (0 :: b')). replace (Z.of_nat 3 * Z.max 0 1 <=? zlen [1; 2; 3] + zlen (0 :: b')) with true by (symmetry; apply Z.leb_le; change (zlen [1; 2; 3]) with 3; change (Z.of_nat 3 * Z.max 0 1) with 3; lia).
      change (groups 3 (Z.to_nat 1) ([1; 2; 3] ++ 0 :: b')) with [[1; 2; 3]].
      change (rmapM _ [[1; 2; 3]]) with (Ok [[1; 2; 3; 0]]). cbn [rbind concat]. rewrite app_nil_r. rewrite PUT by (vm_compute; discriminate). cbn [rbind]. change (zskipn _ (repeat 0 3 ++ [0] ++ b')) with b'.
      unfold runMem. change (bytesPerSample false _) with 3. cbn [Z.eqb Pos.eqb orb]. change (s32 _) with 1. unfold mapCells. rewrite zlen_app. replace (Z.of_nat (Z.to_nat 3) * Z.max 0 1 <=? zlen [1; 2; 3; 0] + zlen b') with true by (symmetry; apply Z.leb_le; pose proof (zlen_nonneg b'); change (zlen [1; 2; 3; 0]) with 4; change (Z.of_nat (Z.to_nat 3) * Z.max 0 1) with 3; lia).
      change (groups (Z.to_nat 3) (Z.to_nat 1) _) with [[1; 2; 3]]. vm_compute. reflexivity. }
    rewrite E in H1. assert (HD : d ++ zskipn (zlen d) [9; 9; 9; 9] = [3; 2; 1; 9]) by congruence. clear H1 E.
    change (1 * bytesPerFrame true v24) with 4 in HL. destruct d as [|d0 [|d1 [|d2 [|d3 [|d4 d]]]]]; try discriminate HL.
    + injection HD as -> -> -> ->. revert H2. vm_compute. discriminate.
    + rewrite !zlen_cons in HL. pose proof (zlen_nonneg d). lia.
Qed.
Print Assumptions C68_24_bit_swapped_refuted.
