(** * The encoder's search for good parameters, and streams of packets

    /repo/libaudiofile/alac/ALACEncoder.cpp:311-437 (two channels) and 884-930 (one channel). *)
From Verif Require Import Prelude PreludeFacts MetadataProofs ALACBits ALACGolomb ALACGolombProofs ALACPredict ALACCodec ALACCodecProofs ALACElements ALACPacket ALACSize ALACTotal.

(** ** The predictor with the coefficients it leaves behind *)

(** dp_enc.c:103-370, as [pcLoop]; the second component is the coefficients at the end (dp_enc.c:180-183, 306-313). *)
Fixpoint pcLoop2 {W : Arith} (chanbits denshift numactive : Z) (cs hist xs : list Z) : res (list Z * list Z) :=
  match xs with
  | [] => Ok ([], cs)
  | x :: xs' =>
      if zlen hist <=? numactive then
        do prev <- aget hist 0;
        do d <- i32 (x - prev);
        do r <- pcLoop2 chanbits denshift numactive cs (x :: hist) xs';
        Ok (signExtend chanbits d :: fst r, snd r)
      else
        do top <- aget hist numactive;
        do bs <- diffs (Z.to_nat numactive) top hist;
        do s <- pcSum numactive denshift cs bs;
        do d1 <- i32 (x - top);
        do d2 <- i32 (d1 - Z.shiftr s denshift);
        let del := signExtend chanbits d2 in
        do cs' <- adaptAll denshift del cs bs;
        do r <- pcLoop2 chanbits denshift numactive cs' (x :: hist) xs';
        Ok (del :: fst r, snd r)
  end.
(** dp_enc.c:74-386 for 4 or 8 coefficients.  [num] samples of the input [xs] are asked for; [numactive + 1] of them are used in any
    case if there are as many.  (Fewer: what is computed from memory beyond is not looked at.)  [old] is the array of residuals before the call. *)
Definition pcRun {W : Arith} (room numactive chanbits : Z) (cs xs old : list Z) (num : Z) : res (list Z * list Z) :=
  if negb (pcRoom room num numactive) then UB else
  match zfirstn (Z.max num (numactive + 1)) xs with
  | [] => Ok (old, cs)
  | x :: xs' =>
      do r <- pcLoop2 chanbits 9 numactive cs [x] xs';
      let es := x :: fst r in
      Ok (es ++ zskipn (zlen es) old, snd r)
  end.
(** ALACEncoder.cpp:409-413, 902-903: the predictor runs over the same samples [times] times *)
Fixpoint converge {W : Arith} (times : nat) (room numactive chanbits : Z) (cs xs old : list Z) (num : Z) : res (list Z * list Z) :=
  match times with
  | O => Ok (old, cs)
  | S k => do r <- pcRun room numactive chanbits cs xs old num; converge k room numactive chanbits (snd r) xs (fst r) num
  end.

(** ALACEncoder.cpp:352-358, 905-910: bits that dyn_comp needs for the first [num] residuals.  Simplification: the search writes to a
    clean work buffer of its own; the code reuses one without looking at what is in it. *)
Definition codeSize (chanbits maxOutput : Z) (p : Z) (es : list Z) (num : Z) : res Z :=
  do bp <- dyn_comp stdAg chanbits (zrepeat 0 maxOutput) p (zfirstn num es); Ok (snd bp - p).

(** What the encoder remembers for a channel: coefficients of the predictors with 4 and 8 coefficients, and the mixing weight. *)
Record chan := Chan { s_u4 : list Z; s_u8 : list Z; s_v4 : list Z; s_v8 : list Z; s_res : Z }.
(** dp_enc.c:46-56, init_coefs; ALACEncoder.cpp:1276-1277, 1304-1311 *)
Definition freshCoefs (n : nat) : list Z := firstn n [Z.shiftr (38 * 512) 4; Z.shiftr (-29 * 512) 4; Z.shiftr (-2 * 512) 4; 0; 0; 0; 0; 0].
Definition freshChan : chan := Chan (freshCoefs 4) (freshCoefs 8) (freshCoefs 4) (freshCoefs 8) 0.

(** ALACEncoder.cpp:1279-1282 *)
Definition maxOutputBytes (fr channels : Z) : Z := fr * channels * ((10 + 32) / 8) + 1.

(** ALACEncoder.cpp:884-930 and 967-968: the choice for one channel and what is remembered afterwards. *)
Definition searchMono {W : Arith} (fr depth channels : Z) (st : chan) (ls : list Z) (n : Z) : res (choice * chan) :=
  let cb := depth - shiftOf depth in
  let us := map (highOf depth) ls in
  let mx := maxOutputBytes fr channels in
  let try num cs := (* 896-911 *)
    do r <- converge 7 fr num cb cs us [] (n / 32);
    do r <- pcRun fr num cb (snd r) us (fst r) (n / 8);
    do bits <- codeSize cb mx 0 (fst r) (n / 8);
    Ok (u32 (8 * bits + 16 * num), snd r) in
  do r4 <- try 4 (s_u4 st);
  do r8 <- try 8 (s_u8 st);
  let '(m4, num4) := if fst r4 <? 2 ^ 31 then (fst r4, 4) else (2 ^ 31, 4) in
  let '(minBits, num) := if fst r8 <? m4 then (fst r8, 8) else (m4, num4) in
  let minBits := u32 (minBits + 32 + (if n =? fr then 0 else 32) + (if shiftOf depth =? 0 then 0 else n * shiftOf depth)) in
  let esc := escapeBits fr depth n 1 <=? minBits in
  let cs := if num =? 4 then snd r4 else snd r8 in
  do cs' <- (if esc then Ok cs else do r <- pcRun fr num cb cs us [] n; Ok (snd r));
  Ok (Choice 0 num num cs cs esc,
      Chan (if num =? 4 then cs' else snd r4) (if num =? 8 then cs' else snd r8) (s_v4 st) (s_v8 st) (s_res st)).

(** ALACEncoder.cpp:330-375: the mixing weights 0 to 4 are tried on an eighth of the samples; [best] is the weight so far with its
    number of bits; the residual arrays keep what the last turn left. *)
Fixpoint mixSearch {W : Arith} (ms : list Z) (fr cb mx : Z) (hs : list (Z * Z)) (n8 : Z) (cu cv eu ev : list Z) (best : Z * Z) : res (list Z * list Z * list Z * list Z * Z) :=
  match ms with
  | [] => Ok (cu, cv, eu, ev, fst best)
  | m :: ms' =>
      do uv <- rmapM (mixOne 2 m) (zfirstn n8 hs);
      do ru <- pcRun fr 8 cb cu (map fst uv) eu n8;
      do rv <- pcRun fr 8 cb cv (map snd uv) ev n8;
      do b1 <- codeSize cb mx 0 (fst ru) n8;
      do b2 <- codeSize cb mx b1 (fst rv) n8;
      let bits := u32 (b1 + b2) in
      mixSearch ms' fr cb mx hs n8 (snd ru) (snd rv) (fst ru) (fst rv) (if bits <? snd best then (m, bits) else best)
  end.
(** ALACEncoder.cpp:311-437, 490-509 *)
Definition searchStereo {W : Arith} (fr depth channels : Z) (st : chan) (ls rs : list Z) (n : Z) : res (choice * chan) :=
  let cb := depth - shiftOf depth + 1 in
  let mx := maxOutputBytes fr channels in
  let hs := combine (map (highOf depth) ls) (map (highOf depth) rs) in
  do r <- mixSearch [0; 1; 2; 3; 4] fr cb mx hs (n / 8) (s_u8 st) (s_v8 st) [] [] (s_res st, 2 ^ 31);
  let '(cu8, cv8, eu, ev, res) := r in
  do uv <- rmapM (mixOne 2 res) hs;
  let us := map fst uv in
  let vs := map snd uv in
  (* 403-431 *)
  do u4 <- converge 8 fr 4 cb (s_u4 st) us eu (n / 32);
  do v4 <- converge 8 fr 4 cb (s_v4 st) vs ev (n / 32);
  do b1 <- codeSize cb mx 0 (fst u4) (n / 8);
  do b2 <- codeSize cb mx b1 (fst v4) (n / 8);
  let mu := u32 (b1 * 8 + 64) in
  let mv := u32 (b2 * 8 + 64) in
  let min1 := if mu <? 2 ^ 31 then mu else 2 ^ 31 in
  let min2 := if mv <? 2 ^ 31 then mv else 2 ^ 31 in
  do u8 <- converge 8 fr 8 cb cu8 us (fst u4) (n / 32);
  do v8 <- converge 8 fr 8 cb cv8 vs (fst v4) (n / 32);
  do b1 <- codeSize cb mx 0 (fst u8) (n / 8);
  do b2 <- codeSize cb mx b1 (fst v8) (n / 8);
  let mu := u32 (b1 * 8 + 128) in
  let mv := u32 (b2 * 8 + 128) in
  let '(min1, numU) := if mu <? min1 then (mu, 8) else (min1, 4) in
  let '(min2, numV) := if mv <? min2 then (mv, 8) else (min2, 4) in
  let minBits := u32 (min1 + min2 + 64 + (if n =? fr then 0 else 32) + (if shiftOf depth =? 0 then 0 else n * shiftOf depth * 2)) in
  let esc := escapeBits fr depth n 2 <=? minBits in
  let cU := if numU =? 4 then snd u4 else snd u8 in
  let cV := if numV =? 4 then snd v4 else snd v8 in
  do cU' <- (if esc then Ok cU else do r <- pcRun fr numU cb cU us [] n; Ok (snd r));
  do cV' <- (if esc then Ok cV else do r <- pcRun fr numV cb cV vs [] n; Ok (snd r));
  Ok (Choice res numU numV cU cV esc,
      Chan (if numU =? 4 then cU' else snd u4) (if numU =? 8 then cU' else snd u8) (if numV =? 4 then cV' else snd v4) (if numV =? 8 then cV' else snd v8) res).

(** ALACEncoder.cpp:1040-1134: the searches for the elements of a packet.  Simplification: all searches come before the packet is
    written; each looks only at its own channel's memory and samples. *)
Definition upd {A} (f : Z -> A) (c : Z) (v : A) : Z -> A := fun i => if i =? c then v else f i.
Fixpoint searchAll {W : Arith} (fuel : nat) (fr depth channels : Z) (st : Z -> chan) (xs : list Z) (c n : Z) : res ((Z -> choice) * (Z -> chan)) :=
  if channels <=? c then Ok (fun _ => Choice 0 4 4 (freshCoefs 4) (freshCoefs 4) true, st) else
  match fuel with
  | O => OutOfFuel
  | S fuel' =>
      do ls <- column (Z.to_nat n) xs c channels;
      if elementTag channels c =? ID_CPE then
        do rs <- column (Z.to_nat n) xs (c + 1) channels;
        do s <- searchStereo fr depth channels (st c) ls rs n;
        do r <- searchAll fuel' fr depth channels (upd st c (snd s)) xs (c + 2) n;
        Ok (upd (fst r) c (fst s), snd r)
      else
        do s <- searchMono fr depth channels (st c) ls n;
        do r <- searchAll fuel' fr depth channels (upd st c (snd s)) xs (c + 1) n;
        Ok (upd (fst r) c (fst s), snd r)
  end.
(** ALACEncoder.cpp:1020-1163, Encode, with the encoder's memory *)
Definition encodePacket {W : Arith} (fr depth channels : Z) (st : Z -> chan) (b xs : list Z) (n : Z) : res (option (list Z * Z) * (Z -> chan)) :=
  do s <- searchAll (Z.to_nat channels) fr depth channels st xs 0 n;
  do r <- encode fr depth channels (fst s) b xs n;
  Ok (r, snd s).
(** ** The search is harmless *)
Definition coefsOk (n : Z) (cs : list Z) : Prop := zlen cs = n /\ Forall (inRange 16) cs.
Definition chanOk (s : chan) : Prop := coefsOk 4 (s_u4 s) /\ coefsOk 8 (s_u8 s) /\ coefsOk 4 (s_v4 s) /\ coefsOk 8 (s_v8 s) /\ 0 <= s_res s <= 4.
Lemma freshChan_ok : chanOk freshChan.
Proof. repeat split; cbn; try lia; repeat constructor; unfold inRange; cbn; lia. Qed.

Lemma Ok_inj {A} (a b : A) : Ok a = Ok b -> b = a. Proof. congruence. Qed.
Lemma s16_range x : inRange 16 (s16 x). Proof. unfold inRange, s16. apply sN_range. lia. Qed.
Lemma adapt_range {W : Arith} pos ds : forall l w del r, Forall (fun ab => inRange 16 (fst ab)) l -> adapt pos ds w del l = Ok r -> Forall (inRange 16) r /\ length r = length l.
Proof.
  induction l as [|[a b] l IH]; intros w del r F H; cbn [adapt] in H; [injection H as <-; split; [constructor|reflexivity]|].
  inversion F as [|ab l0 Ha Fl]; subst. destruct l as [|q l].
  - apply Ok_inj in H. rewrite H. split; [|reflexivity]. constructor; [apply s16_range|constructor].
  - apply rbind_Ok in H. destruct H as (pr & _ & H). apply rbind_Ok in H. destruct H as (t & _ & H). apply rbind_Ok in H. destruct H as (del' & _ & H).
    destruct (if pos then del' <=? 0 else 0 <=? del').
    + apply Ok_inj in H. rewrite H. split; [|cbn [length map]; rewrite map_length; reflexivity]. constructor; [apply s16_range|]. clear - Fl. change (map fst (q :: l)) with (map fst (q :: l)). rewrite Forall_map. exact Fl.
    + apply rbind_Ok in H. destruct H as (r' & H & E). apply Ok_inj in E. rewrite E. apply IH in H; [|exact Fl]. destruct H as [A B]. split; [constructor; [apply s16_range|exact A]|cbn [length] in *; lia].
Qed.
Lemma combine_fst_Forall {A B} (P : A -> Prop) (l : list A) : forall (r : list B), Forall P l -> Forall (fun x => P (fst x)) (combine l r).
Proof. induction l as [|x l IH]; intros [|y r] F; cbn [combine]; try constructor; inversion F; subst; [assumption|apply IH; assumption]. Qed.
Lemma adaptAll_range {W : Arith} ds del cs bs r : Forall (inRange 16) cs -> length bs = length cs -> adaptAll ds del cs bs = Ok r -> Forall (inRange 16) r /\ length r = length cs.
Proof.
  intros F L H. unfold adaptAll in H. destruct (signOfInt del =? 0); [injection H as <-; auto|]. apply rbind_Ok in H. destruct H as (r' & H & E). injection E as <-.
  apply adapt_range in H; [|apply Forall_rev; apply combine_fst_Forall; exact F]. destruct H as [A B]. split; [apply Forall_rev; exact A|]. rewrite rev_length, B, rev_length, combine_length. lia.
Qed.
Lemma diffs_length {W : Arith} : forall n top hist bs, diffs n top hist = Ok bs -> length bs = n.
Proof.
  induction n as [|n IH]; intros top [|x h] bs H; cbn [diffs] in H; try discriminate; try (injection H as <-; reflexivity).
  apply rbind_Ok in H. destruct H as (d & _ & H). apply rbind_Ok in H. destruct H as (l & H & E). injection E as <-. cbn [length]. rewrite (IH _ _ _ H). reflexivity.
Qed.

(** It always succeeds with wrap-around; the residuals are those of the predictor, and the coefficients stay coefficients. *)
Lemma pcLoop2_spec cb n : 1 <= cb <= 32 -> 0 <= n -> forall xs cs hist, coefsOk n cs -> hist <> [] ->
  exists r cs', pcLoop2 (W := Wrapping) cb 9 n cs hist xs = Ok (r, cs') /\ coefsOk n cs' /\ zlen r = zlen xs /\ Forall (inRange cb) r /\ pcLoop (W := Wrapping) cb 9 n cs hist xs = Ok r.
Proof.
  intros Hcb Hn. induction xs as [|x xs IH]; intros cs hist [Lc Fc] Nh; cbn [pcLoop2 pcLoop].
  - exists [], cs. split; [reflexivity|]. split; [split; assumption|]. split; [reflexivity|]. split; [constructor|reflexivity].
  - destruct (zlen hist <=? n) eqn:Ew.
    + destruct hist as [|h hist]; [contradiction|]. change (aget (h :: hist) 0) with (Ok h). cbn [rbind].
      destruct (i32_wraps (x - h)) as [d ->]. cbn [rbind]. destruct (IH cs (x :: h :: hist) (conj Lc Fc)) as (r & cs' & E & Hc & Lr & Fr & E2); [discriminate|].
      rewrite E, E2. cbn [rbind fst snd]. exists (signExtend cb d :: r), cs'. split; [reflexivity|]. split; [exact Hc|]. rewrite !zlen_cons. split; [lia|]. split; [constructor; [apply signExtend_range; exact Hcb|exact Fr]|reflexivity].
    + destruct (aget_some hist n) as [top ->]; [lia|]. cbn [rbind].
      destruct (diffs_total (Z.to_nat n) top hist) as (bs & -> & Lb); [unfold zlen in Ew; lia|]. cbn [rbind].
      destruct (pcSum_total n 9 cs bs) as [s ->]. cbn [rbind]. destruct (i32_wraps (x - top)) as [d1 ->]. cbn [rbind].
      destruct (i32_wraps (d1 - Z.shiftr s 9)) as [d2 ->]. cbn [rbind]. assert (Lbc : length bs = length cs) by (unfold zlen in Lc; lia).
      destruct (adaptAll_total 9 (signExtend cb d2) cs bs Lbc) as (cs1 & E1 & L1). rewrite E1. cbn [rbind].
      apply adaptAll_range in E1; [|exact Fc|exact Lbc]. destruct E1 as [F1 L2]. assert (L3 : zlen cs1 = n) by (clear - L2 Lc; unfold zlen in *; lia).
      destruct (IH cs1 (x :: hist) (conj L3 F1)) as (r & cs' & E & Hc & Lr & Fr & E2); [discriminate|].
      rewrite E, E2. cbn [rbind fst snd]. exists (signExtend cb d2 :: r), cs'. split; [reflexivity|]. split; [exact Hc|]. rewrite !zlen_cons. split; [lia|]. split; [constructor; [apply signExtend_range; exact Hcb|exact Fr]|reflexivity].
Qed.
Lemma pcRun_spec fr n cb cs xs old num : 1 <= cb <= 32 -> 1 <= n -> n <> 31 -> n < fr -> 0 <= num <= fr -> coefsOk n cs -> Forall (inRange cb) xs -> Forall (inRange cb) old ->
  exists es cs', pcRun (W := Wrapping) fr n cb cs xs old num = Ok (es, cs') /\ coefsOk n cs' /\ Forall (inRange cb) es.
Proof.
  intros Hcb Hn H31 Hfr Hnum Hc Fx Fo. unfold pcRun. replace (pcRoom fr num n) with true by (unfold pcRoom; lia). cbn [negb].
  pose proof (Forall_firstn _ (Z.max num (n + 1)) _ Fx) as Ff. destruct (zfirstn (Z.max num (n + 1)) xs) as [|x ys].
  - exists old, cs. split; [reflexivity|]. split; assumption.
  - inversion Ff as [|y l Hx Fys]; subst. destruct (pcLoop2_spec cb n Hcb ltac:(lia) ys cs [x] Hc) as (r & cs' & E & Hc' & Lr & Fr & _); [discriminate|].
    rewrite E. cbn [rbind fst snd]. eexists _, cs'. split; [reflexivity|]. split; [exact Hc'|]. apply Forall_app. split; [constructor; assumption|]. apply Forall_skipn. exact Fo.
Qed.
Lemma converge_spec fr n cb xs num : 1 <= cb <= 32 -> 1 <= n -> n <> 31 -> n < fr -> 0 <= num <= fr -> Forall (inRange cb) xs -> forall times cs old, coefsOk n cs -> Forall (inRange cb) old ->
  exists es cs', converge (W := Wrapping) times fr n cb cs xs old num = Ok (es, cs') /\ coefsOk n cs' /\ Forall (inRange cb) es.
Proof.
  intros Hcb Hn H31 Hfr Hnum Fx. induction times as [|k IH]; intros cs old Hc Fo; cbn [converge]; [exists old, cs; auto|].
  destruct (pcRun_spec fr n cb cs xs old num Hcb Hn H31 Hfr Hnum Hc Fx Fo) as (es & cs' & -> & Hc' & Fe). cbn [rbind fst snd]. apply IH; assumption.
Qed.
Lemma zrepeat_bytes n : bytes_ok (zrepeat 0 n) = true.
Proof. unfold bytes_ok, zrepeat. apply forallb_forall. intros x Hx. apply repeat_spec in Hx. subst. reflexivity. Qed.
Lemma codeSize_spec cb mx p es num : 16 <= cb <= 21 -> Forall (inRange cb) es -> 0 <= num -> 0 <= p -> p + num * (cb + 9) + 24 <= 8 * mx ->
  exists bits, codeSize cb mx p es num = Ok bits /\ 0 <= bits <= num * (cb + 9).
Proof.
  intros Hcb Fe Hn Hp Hm. unfold codeSize. pose proof (Forall_firstn _ num _ Fe) as Ff.
  pose proof (golomb_size cb (zfirstn num es) ltac:(lia) Ff) as GS. pose proof (golombFields_ok cb (zfirstn num es) ltac:(lia) Ff) as [_ [GN _]].
  assert (LE : zlen (zfirstn num es) <= num). { rewrite zlen_firstn by lia. lia. }
  pose proof (zlen_nonneg (zfirstn num es)) as LN.
  assert (GS2 : fbits (golombFields cb (zfirstn num es)) <= num * (cb + 9)) by nia.
  assert (MX : 0 <= mx) by nia. 
  destruct (dyn_comp_total cb (zrepeat 0 mx) p (zfirstn num es)) as (b' & p' & E); [lia|exact Ff|apply zrepeat_bytes|exact Hp|rewrite zlen_repeat by lia; lia|].
  rewrite E. cbn [rbind snd]. apply dyn_comp_wrote in E; [|lia|exact Ff|apply zrepeat_bytes|exact Hp]. destruct E as [_ ->]. eexists. split; [reflexivity|]. lia.
Qed.

Lemma map_high_range depth ls : depthOk depth -> Forall (inRange (container depth)) ls -> Forall (inRange (monoBits depth)) (map (highOf depth) ls).
Proof. intros Hd Fl. induction Fl as [|x l Hx Fl IH]; [constructor|]. constructor; [apply highOf_range; assumption|exact IH]. Qed.

Lemma searchMono_ok fr depth channels st ls n : depthOk depth -> 8 < fr < 2 ^ 24 -> 0 <= n <= fr -> 1 <= channels <= 8 -> chanOk st -> Forall (inRange (container depth)) ls ->
  exists ch st', searchMono (W := Wrapping) fr depth channels st ls n = Ok (ch, st') /\ choiceOk ch /\ chanOk st'.
Proof.
  intros Hd Hf Hn Hch (U4 & U8 & V4 & V8 & R) Fl. pose proof (map_high_range depth ls Hd Fl) as Fh. pose proof (monoBits_range depth Hd) as MB.
  unfold searchMono. cbv zeta. change (depth - shiftOf depth) with (monoBits depth). set (us := map (highOf depth) ls) in *. set (cb := monoBits depth) in *. clearbody cb us.
  assert (MX : 0 + n / 8 * (cb + 9) + 24 <= 8 * maxOutputBytes fr channels) by (unfold maxOutputBytes; change ((10 + 32) / 8) with 5; nia).
  destruct (converge_spec fr 4 cb us (n / 32) ltac:(lia) ltac:(lia) ltac:(lia) ltac:(lia) ltac:(lia) Fh 7 (s_u4 st) [] U4 ltac:(constructor)) as (e1 & c1 & -> & C1 & F1). cbn [rbind fst snd].
  destruct (pcRun_spec fr 4 cb c1 us e1 (n / 8) ltac:(lia) ltac:(lia) ltac:(lia) ltac:(lia) ltac:(lia) C1 Fh F1) as (e2 & c2 & -> & C2 & F2). cbn [rbind fst snd].
  destruct (codeSize_spec cb (maxOutputBytes fr channels) 0 e2 (n / 8) ltac:(lia) F2 ltac:(lia) ltac:(lia) MX) as (b4 & -> & _). cbn [rbind fst snd].
  destruct (converge_spec fr 8 cb us (n / 32) ltac:(lia) ltac:(lia) ltac:(lia) ltac:(lia) ltac:(lia) Fh 7 (s_u8 st) [] U8 ltac:(constructor)) as (e3 & c3 & -> & C3 & F3). cbn [rbind fst snd].
  destruct (pcRun_spec fr 8 cb c3 us e3 (n / 8) ltac:(lia) ltac:(lia) ltac:(lia) ltac:(lia) ltac:(lia) C3 Fh F3) as (e4 & c4 & -> & C4 & F4). cbn [rbind fst snd].
  destruct (codeSize_spec cb (maxOutputBytes fr channels) 0 e4 (n / 8) ltac:(lia) F4 ltac:(lia) ltac:(lia) MX) as (b8 & -> & _). cbn [rbind fst snd].
  assert (G : forall num m, (num = 4 \/ num = 8) -> exists ch st',
    (do cs' <- (if escapeBits fr depth n 1 <=? m then Ok (if num =? 4 then c2 else c4) else do r <- pcRun (W := Wrapping) fr num cb (if num =? 4 then c2 else c4) us [] n; Ok (snd r));
     Ok (Choice 0 num num (if num =? 4 then c2 else c4) (if num =? 4 then c2 else c4) (escapeBits fr depth n 1 <=? m),
         Chan (if num =? 4 then cs' else c2) (if num =? 8 then cs' else c4) (s_v4 st) (s_v8 st) (s_res st))) = Ok (ch, st') /\ choiceOk ch /\ chanOk st').
  { intros num m N. assert (CN : coefsOk num (if num =? 4 then c2 else c4)) by (destruct N as [-> | ->]; assumption). set (cs := if num =? 4 then c2 else c4) in *.
    assert (X : exists cs', (if escapeBits fr depth n 1 <=? m then Ok cs else do r <- pcRun (W := Wrapping) fr num cb cs us [] n; Ok (snd r)) = Ok cs' /\ coefsOk num cs').
    { destruct (escapeBits fr depth n 1 <=? m); [eauto|]. destruct (pcRun_spec fr num cb cs us [] n ltac:(lia) ltac:(lia) ltac:(lia) ltac:(lia) ltac:(lia) CN Fh ltac:(constructor)) as (e5 & c5 & -> & C5 & _). cbn [rbind snd]. eauto. }
    destruct X as (cs' & -> & C'). cbn [rbind]. eexists _, _. split; [reflexivity|]. split.
    - destruct CN as [Lc Fc]. unfold choiceOk. cbn [c_res c_numU c_numV c_coefsU c_coefsV]. repeat split; try lia; assumption.
    - unfold chanOk. cbn [s_u4 s_u8 s_v4 s_v8 s_res]. destruct N as [-> | ->]; cbn [Z.eqb Pos.eqb]; auto. }
  destruct (u32 (8 * b4 + 16 * 4) <? 2 ^ 31); cbv iota beta.
  - destruct (u32 (8 * b8 + 16 * 8) <? u32 (8 * b4 + 16 * 4)); apply G; auto.
  - destruct (u32 (8 * b8 + 16 * 8) <? 2 ^ 31); apply G; auto.
Qed.

Lemma mixSearch_ok fr cb mx hs n8 bits : cb = bits + 1 -> 16 <= cb <= 21 -> 8 < fr -> 0 <= n8 <= fr -> n8 * 60 + 24 <= 8 * mx ->
  Forall (fun x => inRange bits (fst x) /\ inRange bits (snd x)) hs ->
  forall ms cu cv eu ev best, Forall (fun m => 0 <= m <= 4) ms -> coefsOk 8 cu -> coefsOk 8 cv -> Forall (inRange cb) eu -> Forall (inRange cb) ev -> 0 <= fst best <= 4 ->
  exists cu' cv' eu' ev' res, mixSearch (W := Wrapping) ms fr cb mx hs n8 cu cv eu ev best = Ok (cu', cv', eu', ev', res) /\
    coefsOk 8 cu' /\ coefsOk 8 cv' /\ Forall (inRange cb) eu' /\ Forall (inRange cb) ev' /\ 0 <= res <= 4.
Proof.
  intros Eb Hcb Hf Hn Hm Fh. induction ms as [|m ms IH]; intros cu cv eu ev best Fm Cu Cv Fu Fv Hb; cbn [mixSearch].
  - exists cu, cv, eu, ev, (fst best). auto 8.
  - inversion Fm as [|m' l Hm4 Fms]; subst m' l. pose proof (Forall_firstn _ n8 _ Fh) as Fh8.
    destruct (mix_total (W := Wrapping) bits m (zfirstn n8 hs) ltac:(lia) Hm4 Fh8) as [uv E]. rewrite E. cbn [rbind].
    apply (mix_list bits m _ _ ltac:(lia) Hm4 Fh8) in E. destruct E as (U & V & _ & _). rewrite <- Eb in U, V.
    destruct (pcRun_spec fr 8 cb cu (map fst uv) eu n8 ltac:(lia) ltac:(lia) ltac:(lia) ltac:(lia) Hn Cu U Fu) as (e1 & c1 & -> & C1 & F1). cbn [rbind fst snd].
    destruct (pcRun_spec fr 8 cb cv (map snd uv) ev n8 ltac:(lia) ltac:(lia) ltac:(lia) ltac:(lia) Hn Cv V Fv) as (e2 & c2 & -> & C2 & F2). cbn [rbind fst snd].
    assert (N : n8 * (cb + 9) <= n8 * 30) by nia.
    destruct (codeSize_spec cb mx 0 e1 n8 Hcb F1 ltac:(lia) ltac:(lia) ltac:(lia)) as (b1 & -> & B1). cbn [rbind fst snd].
    destruct (codeSize_spec cb mx b1 e2 n8 Hcb F2 ltac:(lia) ltac:(lia) ltac:(lia)) as (b2 & -> & B2). cbn [rbind fst snd].
    apply IH; auto. destruct (u32 (b1 + b2) <? snd best); [exact Hm4|exact Hb].
Qed.

Lemma searchStereo_ok fr depth channels st ls rs n : depthOk depth -> 8 < fr < 2 ^ 24 -> 0 <= n <= fr -> 1 <= channels <= 8 -> chanOk st ->
  Forall (inRange (container depth)) ls -> Forall (inRange (container depth)) rs ->
  exists ch st', searchStereo (W := Wrapping) fr depth channels st ls rs n = Ok (ch, st') /\ choiceOk ch /\ chanOk st'.
Proof.
  intros Hd Hf Hn Hch (U4 & U8 & V4 & V8 & R) Fl Fr.
  pose proof (map_high_range depth ls Hd Fl) as Hl. pose proof (map_high_range depth rs Hd Fr) as Hr. pose proof (monoBits_range depth Hd) as MB.
  pose proof (combine_Forall _ _ _ _ Hl Hr) as Fh. unfold searchStereo. cbv zeta. change (depth - shiftOf depth) with (monoBits depth).
  set (hs := combine (map (highOf depth) ls) (map (highOf depth) rs)) in *. set (bits := monoBits depth) in *. clearbody hs bits. 
  assert (MX : n / 8 * 60 + 24 <= 8 * maxOutputBytes fr channels) by (unfold maxOutputBytes; change ((10 + 32) / 8) with 5; nia). set (mx := maxOutputBytes fr channels) in *. clearbody mx.
  remember (bits + 1) as cb eqn:Ecb. assert (Hcb : 16 <= cb <= 21) by lia.
  destruct (mixSearch_ok fr cb mx hs (n / 8) bits Ecb Hcb ltac:(lia) ltac:(lia) MX Fh [0;1;2;3;4] (s_u8 st) (s_v8 st) [] [] (s_res st, 2 ^ 31)) as (cu8 & cv8 & eu & ev & res & -> & CU & CV & FU & FV & HR);
    [repeat constructor; lia|exact U8|exact V8|constructor|constructor|exact R|]. cbn [rbind].
  destruct (mix_total (W := Wrapping) bits res hs ltac:(lia) HR Fh) as [uv E]. rewrite E. cbn [rbind].
  apply (mix_list bits res _ _ ltac:(lia) HR Fh) in E. destruct E as (Fu & Fv & _ & _). rewrite <- Ecb in Fu, Fv. set (us := map fst uv) in *. set (vs := map snd uv) in *. clearbody us vs. clear uv.
  assert (N8 : 0 <= n / 8 <= fr) by lia. assert (N : n / 8 * (cb + 9) <= n / 8 * 30) by (clear - N8 Hcb; nia).
  destruct (converge_spec fr 4 cb us (n / 32) ltac:(lia) ltac:(lia) ltac:(lia) ltac:(lia) ltac:(lia) Fu 8 (s_u4 st) eu U4 FU) as (eu4 & cu4 & -> & Cu4 & Fu4). cbn [rbind fst snd].
  destruct (converge_spec fr 4 cb vs (n / 32) ltac:(lia) ltac:(lia) ltac:(lia) ltac:(lia) ltac:(lia) Fv 8 (s_v4 st) ev V4 FV) as (ev4 & cv4 & -> & Cv4 & Fv4). cbn [rbind fst snd].
  destruct (codeSize_spec cb mx 0 eu4 (n / 8) Hcb Fu4 ltac:(lia) ltac:(lia) ltac:(lia)) as (b1 & -> & B1). cbn [rbind fst snd].
  destruct (codeSize_spec cb mx b1 ev4 (n / 8) Hcb Fv4 ltac:(lia) ltac:(lia) ltac:(lia)) as (b2 & -> & B2). cbn [rbind fst snd].
  destruct (converge_spec fr 8 cb us (n / 32) ltac:(lia) ltac:(lia) ltac:(lia) ltac:(lia) ltac:(lia) Fu 8 cu8 eu4 CU Fu4) as (eu8 & cu & -> & Cu & Fu8). cbn [rbind fst snd].
  destruct (converge_spec fr 8 cb vs (n / 32) ltac:(lia) ltac:(lia) ltac:(lia) ltac:(lia) ltac:(lia) Fv 8 cv8 ev4 CV Fv4) as (ev8 & cv & -> & Cv & Fv8). cbn [rbind fst snd].
  destruct (codeSize_spec cb mx 0 eu8 (n / 8) Hcb Fu8 ltac:(lia) ltac:(lia) ltac:(lia)) as (b3 & -> & B3). cbn [rbind fst snd].
  destruct (codeSize_spec cb mx b3 ev8 (n / 8) Hcb Fv8 ltac:(lia) ltac:(lia) ltac:(lia)) as (b4 & -> & B4). cbn [rbind fst snd].
  set (m1 := if u32 (b1 * 8 + 64) <? 2 ^ 31 then u32 (b1 * 8 + 64) else 2 ^ 31). set (m2 := if u32 (b2 * 8 + 64) <? 2 ^ 31 then u32 (b2 * 8 + 64) else 2 ^ 31). clearbody m1 m2.
  assert (G : forall numU numV m, (numU = 4 \/ numU = 8) -> (numV = 4 \/ numV = 8) -> exists ch st',
    (let esc := escapeBits fr depth n 2 <=? m in let cU := if numU =? 4 then cu4 else cu in let cV := if numV =? 4 then cv4 else cv in
     do cU' <- (if esc then Ok cU else do r <- pcRun (W := Wrapping) fr numU cb cU us [] n; Ok (snd r));
     do cV' <- (if esc then Ok cV else do r <- pcRun (W := Wrapping) fr numV cb cV vs [] n; Ok (snd r));
     Ok (Choice res numU numV cU cV esc,
      Chan (if numU =? 4 then cU' else cu4) (if numU =? 8 then cU' else cu) (if numV =? 4 then cV' else cv4) (if numV =? 8 then cV' else cv) res)) = Ok (ch, st') /\ choiceOk ch /\ chanOk st').
  { intros numU numV m NU NV. cbv zeta. assert (CU1 : coefsOk numU (if numU =? 4 then cu4 else cu)) by (destruct NU as [-> | ->]; assumption). assert (CV1 : coefsOk numV (if numV =? 4 then cv4 else cv)) by (destruct NV as [-> | ->]; assumption).
    set (c1 := if numU =? 4 then cu4 else cu) in *. set (c2 := if numV =? 4 then cv4 else cv) in *.
    assert (X : forall num cs xs, (num = 4 \/ num = 8) -> coefsOk num cs -> Forall (inRange cb) xs -> exists cs', (if escapeBits fr depth n 2 <=? m then Ok cs else do r <- pcRun (W := Wrapping) fr num cb cs xs [] n; Ok (snd r)) = Ok cs' /\ coefsOk num cs').
    { intros num cs xs HN HC HF. destruct (escapeBits fr depth n 2 <=? m); [eauto|]. destruct (pcRun_spec fr num cb cs xs [] n ltac:(lia) ltac:(lia) ltac:(lia) ltac:(lia) ltac:(lia) HC HF ltac:(constructor)) as (e5 & c5 & -> & C5 & _). cbn [rbind snd]. eauto. }
    destruct (X numU c1 us NU CU1 Fu) as (cU' & -> & CU'). destruct (X numV c2 vs NV CV1 Fv) as (cV' & -> & CV'). cbn [rbind]. eexists _, _. split; [reflexivity|]. split.
    - destruct CU1 as [Lc Fc]. destruct CV1 as [Lc2 Fc2]. unfold choiceOk. cbn [c_res c_numU c_numV c_coefsU c_coefsV]. repeat split; try lia; assumption.
    - unfold chanOk. cbn [s_u4 s_u8 s_v4 s_v8 s_res]. destruct NU as [-> | ->]; destruct NV as [-> | ->]; cbn [Z.eqb Pos.eqb]; auto 8. }
  destruct (u32 (b3 * 8 + 128) <? m1); destruct (u32 (b4 * 8 + 128) <? m2); apply G; auto.
Qed.

Lemma upd_all {A} (P : A -> Prop) f c v : (forall i, P (f i)) -> P v -> forall i, P (upd f c v i).
Proof. intros Hf Hv i. unfold upd. destruct (i =? c); [exact Hv|apply Hf]. Qed.

Lemma searchAll_ok fr depth channels xs n : depthOk depth -> 8 < fr < 2 ^ 24 -> 0 <= n <= fr -> 1 <= channels <= 8 -> Forall (inRange (container depth)) xs -> zlen xs = n * channels ->
  forall fuel st c, (forall i, chanOk (st i)) -> 0 <= c <= channels -> (Z.to_nat (channels - c) <= fuel)%nat ->
  exists pick st', searchAll (W := Wrapping) fuel fr depth channels st xs c n = Ok (pick, st') /\ (forall i, choiceOk (pick i)) /\ (forall i, chanOk (st' i)).
Proof.
  intros Hd Hf Hn Hch Fx Lx. induction fuel as [|fuel IH]; intros st c Hst Hc Hfuel; cbn [searchAll].
  - replace (channels <=? c) with true by lia. eexists _, _. split; [reflexivity|]. split; [|exact Hst]. intros i. unfold choiceOk. cbn [c_res c_numU c_numV c_coefsU c_coefsV]. repeat split; try lia; repeat constructor; unfold inRange; cbn; lia.
  - destruct (channels <=? c) eqn:E.
    { eexists _, _. split; [reflexivity|]. split; [|exact Hst]. intros i. unfold choiceOk. cbn [c_res c_numU c_numV c_coefsU c_coefsV]. repeat split; try lia; repeat constructor; unfold inRange; cbn; lia. }
    assert (COL : forall k, 0 <= k < channels -> exists ls, column (Z.to_nat n) xs k channels = Ok ls /\ Forall (inRange (container depth)) ls).
    { intros k Hk. destruct (column_total (Z.to_nat n) xs k channels ltac:(lia) ltac:(lia)) as [ls El]. { destruct (Z.eq_dec n 0) as [->|]; [left; reflexivity|right]. rewrite Z2Nat.id by lia. nia. }
      exists ls. split; [exact El|]. apply column_spec in El; [|lia|lia]. destruct El as (_ & P & _). apply P. exact Fx. }
    destruct (COL c) as (ls & -> & Fl); [lia|]. cbn [rbind]. destruct (tag_plan channels c Hch ltac:(lia)) as [T|[T T2]]; rewrite T.
    + change (ID_SCE =? ID_CPE) with false. cbv iota. destruct (searchMono_ok fr depth channels (st c) ls n Hd Hf Hn Hch (Hst c) Fl) as (ch & s' & -> & Hch' & Hs'). cbn [rbind fst snd].
      destruct (IH (upd st c s') (c + 1) (upd_all chanOk _ _ _ Hst Hs') ltac:(lia) ltac:(lia)) as (pick & st' & -> & HP & HS). cbn [rbind fst snd]. eexists _, _. split; [reflexivity|]. split; [apply upd_all; assumption|exact HS].
    + change (ID_CPE =? ID_CPE) with true. cbv iota. destruct (COL (c + 1)) as (rs & -> & Fr); [lia|]. cbn [rbind].
      destruct (searchStereo_ok fr depth channels (st c) ls rs n Hd Hf Hn Hch (Hst c) Fl Fr) as (ch & s' & -> & Hch' & Hs'). cbn [rbind fst snd].
      destruct (IH (upd st c s') (c + 2) (upd_all chanOk _ _ _ Hst Hs') ltac:(lia) ltac:(lia)) as (pick & st' & -> & HP & HS). cbn [rbind fst snd]. eexists _, _. split; [reflexivity|]. split; [apply upd_all; assumption|exact HS].
Qed.
