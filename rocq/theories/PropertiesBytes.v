(** * C71: the bytes an application writes are the bytes it reads back

    The whole way of a PCM file: afWriteFrames passes the caller's bytes through the converters to the file module, the file
    is closed and opened again, and afReadFrames passes the file's bytes through the converters to the caller.  The caller
    uses the format the library gives him by default: the file's sample format in the machine's byte order. *)
From Verif Require Import Prelude PreludeFacts ByteOrder ByteOrderProofs Convert ConvertProofs Float FloatFacts FloatConv FloatBits FloatValid Arrange ArrangeProofs Memory MemoryProofs PropertiesBuffers.
From Coq Require Import Lia.

(** ** Specification *)
(** The bytes [c] of a number, in the machine's byte order when they are in [o], and the other way round. *)
Definition ordered (host o : order) (c : list Z) : list Z := if order_eqb host o then c else rev c.
(** A sample of the caller in the file, in byte order [o]: 24-bit samples lose the byte that fills up their four. *)
Definition toFile (host o : order) (t : ty) (u : list Z) : list Z :=
  ordered host o (if is24 t then match host with LittleEndian => firstn 3 u | BigEndian => skipn 1 u end else u).
(** A sample of the file in the caller's memory: 24-bit samples are filled up by their sign (signed) or by zero. *)
Definition fill (host : order) (t : ty) (s : list Z) : Z :=
  match t with TI _ => if 128 <=? (match host with LittleEndian => nth 2 s 0 | BigEndian => nth 0 s 0 end) then 255 else 0 | _ => 0 end.
Definition toCaller (host o : order) (t : ty) (c : list Z) : list Z :=
  let s := ordered host o c in if is24 t then match host with LittleEndian => s ++ [fill host t s] | BigEndian => fill host t s :: s end else s.
(** All samples of [n] frames of [ch] channels. *)
Definition framesToFile (host o : order) (t : ty) (ch n : Z) (u : list Z) : list Z := concat (map (toFile host o t) (groups (tysize t) (Z.to_nat (n * ch)) u)).
Definition framesToCaller (host o : order) (t : ty) (ch n : Z) (d : list Z) : list Z := concat (map (toCaller host o t) (groups (packedSize t) (Z.to_nat (n * ch)) d)).
(** What the caller must keep to: 24-bit samples are numbers of 24 bits. *)
Definition inBytes (host : order) (t : ty) (u : list Z) : Prop := is24 t = true -> toCaller host host t (toFile host host t u) = u.
(** The file's format [f] and the caller's [v]: PCM at full scale.  (Unsigned 32-bit samples overflow in the converters: C06.) *)
Definition fullScale (t : ty) : pcmInfo := match t with TI c => signedMapping c | TU c => unsignedMapping c | _ => floatMapping end.
Record samePCM (host : order) (f v : format) (t : ty) : Prop := {
  p_file : fmtTy f = Some t; p_raw : compressed f = false; p_scale : pcm f = fullScale t; p_chan : 1 <= channelCount f < 2 ^ 18;
  p_no32 : t <> TU kInt32;
  p_user : v = {| sampleFormat := sampleFormat f; sampleWidth := sampleWidth f; channelCount := channelCount f; byteOrder := host; compressed := false; pcm := pcm f |} }.

(** ** Samples *)
Lemma order_eqb_refl a : order_eqb a a = true. Proof. destruct a; reflexivity. Qed.
Lemma load_ordered host o c : load o (ordered host o c) = load host c.
Proof. unfold ordered, load. destruct host, o; cbn [order_eqb]; try reflexivity; unfold be_val; now rewrite ?rev_involutive. Qed.
Lemma load_ordered' host o c : load host (ordered host o c) = load o c.
Proof. unfold ordered, load. destruct host, o; cbn [order_eqb]; try reflexivity; unfold be_val; now rewrite ?rev_involutive. Qed.
Lemma ordered_len host o c : length (ordered host o c) = length c. Proof. unfold ordered. destruct (order_eqb host o); [|rewrite rev_length]; reflexivity. Qed.
Lemma ordered_ok host o c : bytes_ok c = true -> bytes_ok (ordered host o c) = true.
Proof. unfold ordered. destruct (order_eqb host o); [auto|]. intros H. apply bytes_ok_Forall in H. apply bytes_ok_Forall. now apply Forall_rev. Qed.
Lemma ordered_twice host o c : ordered host o (ordered host o c) = c.
Proof. unfold ordered. destruct (order_eqb host o); [reflexivity|apply rev_involutive]. Qed.
Lemma byte_split l : bytes_ok l = true -> Forall (fun b => 0 <= b < 256) l.
Proof. apply bytes_ok_spec. Qed.
Lemma len4 {A} (l : list A) : length l = 4%nat -> exists a b c d, l = [a; b; c; d].
Proof. destruct l as [|a [|b [|c [|d [|]]]]]; try discriminate. eauto. Qed.
Lemma len3 {A} (l : list A) : length l = 3%nat -> exists a b c, l = [a; b; c].
Proof. destruct l as [|a [|b [|c [|]]]]; try discriminate. eauto. Qed.
Lemma is24_cases t : is24 t = true -> t = TI kInt24 \/ t = TU kInt24.
Proof. destruct t as [[]|[]| |]; try discriminate; auto. Qed.
Lemma toFile_len host o t u : length u = tysize t -> length (toFile host o t u) = packedSize t.
Proof.
  intros L. unfold toFile. rewrite ordered_len. destruct (is24 t) eqn:E.
  - destruct (is24_cases t E) as [-> | ->]; cbn [tysize] in L; destruct (len4 u L) as (a & b & c & d & ->); destruct host; reflexivity.
  - rewrite L. destruct t as [[]|[]| |]; try reflexivity; discriminate.
Qed.
Lemma toFile_ok host o t u : bytes_ok u = true -> bytes_ok (toFile host o t u) = true.
Proof.
  intros H. unfold toFile. apply ordered_ok. destruct (is24 t); [|exact H]. apply bytes_ok_Forall in H. destruct host; apply bytes_ok_Forall; [apply (Forall_skipn _ 1 u H)|apply (Forall_firstn _ 3 u H)].
Qed.
Lemma toCaller_len host o t c : length c = packedSize t -> length (toCaller host o t c) = tysize t.
Proof.
  intros L. unfold toCaller. destruct (is24 t) eqn:E.
  - destruct (is24_cases t E) as [-> | ->]; destruct host; rewrite ?app_length; cbn [length]; rewrite ordered_len, L; reflexivity.
  - rewrite ordered_len, L. destruct t as [[]|[]| |]; try reflexivity; discriminate.
Qed.
Lemma fill_byte host t s : bytes_ok [fill host t s] = true.
Proof. unfold fill. destruct t; try reflexivity. destruct (_ <=? _); reflexivity. Qed.
Lemma bytes_ok_app a b : bytes_ok a = true -> bytes_ok b = true -> bytes_ok (a ++ b) = true.
Proof. unfold bytes_ok. rewrite forallb_app. now intros -> ->. Qed.
Lemma toCaller_ok host o t c : bytes_ok c = true -> bytes_ok (toCaller host o t c) = true.
Proof.
  intros H. unfold toCaller. cbv zeta. pose proof (ordered_ok host o c H) as K. destruct (is24 t); [|exact K]. destruct host; [apply (bytes_ok_app [_]); [apply fill_byte|exact K]|apply bytes_ok_app; [exact K|apply fill_byte]].
Qed.
(** Back and forth. *)
Lemma toCaller_toFile host o t u : length u = tysize t -> inBytes host t u -> toCaller host o t (toFile host o t u) = u.
Proof.
  intros L H. unfold inBytes in H. unfold toCaller, toFile in *. cbv zeta in *. rewrite ordered_twice. destruct (is24 t) eqn:E; [|reflexivity]. specialize (H eq_refl). unfold ordered in H. rewrite order_eqb_refl in H. exact H.
Qed.
(** What the bytes mean. *)
Lemma dec_ordered host o t c : (match t with TF | TD => False | _ => True end) -> dec o t (ordered host o c) = dec host t c.
Proof. intros _. destruct t; cbn [dec]; rewrite load_ordered; unfold zlen; rewrite ?ordered_len; reflexivity. Qed.
Lemma dec_ordered' host o t c : dec host t (ordered host o c) = dec o t c.
Proof. destruct t; cbn [dec]; rewrite load_ordered'; unfold zlen; rewrite ?ordered_len; reflexivity. Qed.
Lemma load4 host a b c d : load host [a; b; c; d] = match host with LittleEndian => a + 256 * b + 65536 * c + 16777216 * d | BigEndian => d + 256 * c + 65536 * b + 16777216 * a end.
Proof. destruct host; unfold load, be_val; cbn [rev app le_val]; lia. Qed.
Lemma load3 host a b c : load host [a; b; c] = match host with LittleEndian => a + 256 * b + 65536 * c | BigEndian => c + 256 * b + 65536 * a end.
Proof. destruct host; unfold load, be_val; cbn [rev app le_val]; lia. Qed.
Lemma dec_toFile host o t u : length u = tysize t -> bytes_ok u = true -> (match t with TF | TD => False | _ => True end) -> dec o t (toFile host o t u) = low24 (dec host t u).
Proof.
  intros L B I. unfold toFile. rewrite dec_ordered by exact I. destruct (is24 t) eqn:E.
  - apply byte_split in B. destruct (is24_cases t E) as [-> | ->]; cbn [tysize] in L; destruct (len4 u L) as (a & b & c & d & ->); repeat match goal with H : Forall _ (_ :: _) |- _ => apply Forall_cons_iff in H as [? H] end;
      destruct host; cbn [firstn skipn dec low24]; rewrite load3, load4; f_equal; change (zlen [a; b; c]) with 3; change (zlen [b; c; d]) with 3; change (zlen [a; b; c; d]) with 4; unfold sN; change (2 ^ (8 * 3)) with 16777216; change (2 ^ (8 * 4)) with 4294967296; change (2 ^ 24) with 16777216; try lia.
    all: change (2 ^ (8 * 3 - 1)) with 8388608; change (2 ^ (8 * 4 - 1)) with 2147483648; change (2 ^ (24 - 1)) with 8388608; lia.
  - destruct t as [[]|[]| |]; try reflexivity; discriminate.
Qed.
Lemma dec_toCaller host o t c : length c = packedSize t -> bytes_ok c = true -> (match t with TF | TD => False | _ => True end) -> dec host t (toCaller host o t c) = dec o t c.
Proof.
  intros L B I. unfold toCaller. cbv zeta. rewrite <- (dec_ordered' host o). pose proof (ordered_ok host o c B) as B'. pose proof (ordered_len host o c) as L'. set (s := ordered host o c) in *. clearbody s. rewrite L in L'. clear L B c. destruct (is24 t) eqn:E.
  - apply byte_split in B'. destruct (is24_cases t E) as [-> | ->]; cbn [packedSize] in L'; destruct (len3 s L') as (a & b & c & ->); repeat match goal with H : Forall _ (_ :: _) |- _ => apply Forall_cons_iff in H as [? H] end;
      destruct host; cbn [app dec fill nth]; try destruct (Z.leb_spec 128 a); try destruct (Z.leb_spec 128 c); rewrite load3, load4; f_equal; unfold zlen; cbn [length]; change (Z.of_nat 3) with 3; change (Z.of_nat 4) with 4; unfold sN; change (2 ^ (8 * 3)) with 16777216; change (2 ^ (8 * 4)) with 4294967296; change (2 ^ 24) with 16777216; try lia.
    all: change (2 ^ (8 * 3 - 1)) with 8388608; change (2 ^ (8 * 4 - 1)) with 2147483648; change (2 ^ (24 - 1)) with 8388608; lia.
  - reflexivity.
Qed.
Lemma load_inj o c c' : length c = length c' -> bytes_ok c = true -> bytes_ok c' = true -> load o c = load o c' -> c = c'.
Proof. intros L B B' H. rewrite <- (store_load o c B), <- (store_load o c' B'). now rewrite L, H. Qed.
Lemma load_range o c : bytes_ok c = true -> 0 <= load o c < 2 ^ (8 * zlen c).
Proof.
  intros B. unfold load. destruct o; [pose proof (be_val_range c B)|pose proof (le_val_range c B)]; unfold zlen in *; auto.
Qed.
Lemma sN_inj k x y : 0 < k -> 0 <= x < 2 ^ k -> 0 <= y < 2 ^ k -> sN k x = sN k y -> x = y.
Proof.
  intros K X Y H. assert (E : 2 ^ k = 2 * 2 ^ (k - 1)) by (rewrite <- Z.pow_succ_r by lia; f_equal; lia). unfold sN in H. rewrite E in *. assert (0 < 2 ^ (k - 1)) by (apply Z.pow_pos_nonneg; lia). set (p := 2 ^ (k - 1)) in *. clearbody p.
  assert (M : forall z, 0 <= z < 2 * p -> (z + p) mod (2 * p) = if z <? p then z + p else z - p).
  { intros z Hz. destruct (Z.ltb_spec z p); [apply Z.mod_small; lia|]. replace (z + p) with (z - p + 1 * (2 * p)) by lia. rewrite Z_mod_plus_full. apply Z.mod_small. lia. }
  rewrite !M in H by lia. destruct (Z.ltb_spec x p), (Z.ltb_spec y p); lia.
Qed.
Lemma dec_inj o t c c' : (match t with TF | TD => False | _ => True end) -> length c = length c' -> bytes_ok c = true -> bytes_ok c' = true -> dec o t c = dec o t c' -> c = c'.
Proof.
  intros I L B B' H. assert (ZL : zlen c = zlen c') by (unfold zlen; now rewrite L). apply (load_inj o c c' L B B'). pose proof (load_range o c B) as R. pose proof (load_range o c' B') as R'.
  destruct t; try contradiction; cbn [dec] in H; [|congruence]. assert (HS : sN (8 * zlen c) (load o c) = sN (8 * zlen c') (load o c')) by congruence. rewrite ZL in *. destruct (Z.eq_dec (zlen c') 0) as [E|E].
  - rewrite E in *. change (2 ^ (8 * 0)) with 1 in *. lia.
  - apply (sN_inj (8 * zlen c')); auto. pose proof (zlen_nonneg c'). lia.
Qed.

(** ** The converters between a file and a caller who uses the file's sample format *)
Definition unsignedTy (t : ty) : bool := match t with TU _ => true | _ => false end.
Definition otherOrder (a b : order) : bool := match a, b with BigEndian, LittleEndian | LittleEndian, BigEndian => true | _, _ => false end.
Definition coreOf (t : ty) : list module := match t with TU c => [MSign c false; MSign c true] | _ => [] end.
Definition swapOf (host o : order) (t : ty) : list module := when (otherOrder o host && (1 <? Z.of_nat (packedSize t))) [MSwap].
Definition readChain (host o : order) (t : ty) : list module := swapOf host o t ++ when (is24 t) [MExpand3 (negb (unsignedTy t))] ++ coreOf t.
Definition writeChain (host o : order) (t : ty) : list module := coreOf t ++ when (is24 t) [MCompress3 (negb (unsignedTy t))] ++ swapOf host o t.
Lemma core_same wrapv t : t <> TU kInt32 ->
  arrangeCore wrapv (unsignedTy t) (unsignedTy t) (match t with TI c | TU c => kI c | TF => kFloat | TD => kDouble end) (match t with TI c | TU c => kI c | TF => kFloat | TD => kDouble end) (fullScale t) (fullScale t) [] = Ok (coreOf t).
Proof. intros N. destruct wrapv, t as [[]|[]| |]; try (now contradict N); vm_compute; reflexivity. Qed.
Lemma fmtTy_code f t : fmtTy f = Some t -> getFormatCode f = Some (match t with TI c | TU c => kI c | TF => kFloat | TD => kDouble end) /\ isUnsigned f = unsignedTy t.
Proof.
  unfold fmtTy, isUnsigned. unfold getFormatCode. destruct (sampleFormat f); try (intros H; assert (t = _) as -> by congruence; split; reflexivity);
    (destruct (bytesPerSample false f) as [|[[[]|[]|]|[[]|[]|]|]|]; try discriminate; intros H; match type of H with Some ?x = _ => assert (t = x) as -> by congruence end; split; reflexivity).
Qed.
Lemma samePCM_user host f v t : samePCM host f v t -> fmtTy v = Some t /\ compressed v = false /\ byteOrder v = host /\ channelCount v = channelCount f /\ pcm v = fullScale t.
Proof.
  intros [F R P C N U]. subst v. cbn [compressed byteOrder channelCount pcm]. split; [|auto]. rewrite <- F. unfold fmtTy, getFormatCode, isUnsigned, bytesPerSample. cbn [sampleFormat sampleWidth compressed]. rewrite R. reflexivity.
Qed.
Lemma order_ne o : otherOrder o o = false. Proof. destruct o; reflexivity. Qed.
Lemma chains wrapv host f v t : samePCM host f v t ->
  arrange wrapv host true f v None = Ok (Some (readChain host (byteOrder f) t)) /\ arrange wrapv host false v f None = Ok (Some (writeChain host (byteOrder f) t)).
Proof.
  intros S. destruct (samePCM_user _ _ _ _ S) as (FV & RV & OV & CV & PV). destruct S as [F R P C N U]. clear U.
  destruct (fmtTy_code _ _ F) as [CF UF]. destruct (fmtTy_code _ _ FV) as [CVc UV]. destruct (fmt_24 _ _ F) as [I1 _]. destruct (fmt_24 _ _ FV) as [I2 _].
  destruct (fmt_bps _ _ F) as [B1 _]. 
  unfold arrange. cbv zeta. rewrite CF, CVc, UF, UV, I1, I2, R, RV, OV, CV, P, PV, B1, Z.eqb_refl. cbn [negb when orb]. rewrite (core_same wrapv t N). cbn [rbind].
  split; do 2 f_equal.
  - unfold readChain, swapOf. change (match byteOrder f with BigEndian => match host with BigEndian => false | LittleEndian => true end | LittleEndian => match host with BigEndian => true | LittleEndian => false end end) with (otherOrder (byteOrder f) host).
    change (match host with BigEndian => match host with BigEndian => false | LittleEndian => true end | LittleEndian => match host with BigEndian => true | LittleEndian => false end end) with (otherOrder host host). rewrite order_ne, !andb_true_r, andb_false_r. cbn [andb when app].
    rewrite !app_nil_r, B1. reflexivity.
  - unfold writeChain, swapOf. change (match byteOrder f with BigEndian => match host with BigEndian => false | LittleEndian => true end | LittleEndian => match host with BigEndian => true | LittleEndian => false end end) with (otherOrder (byteOrder f) host).
    change (match host with BigEndian => match host with BigEndian => false | LittleEndian => true end | LittleEndian => match host with BigEndian => true | LittleEndian => false end end) with (otherOrder host host). rewrite order_ne, !andb_true_r, andb_false_r. cbn [andb when app]. reflexivity.
Qed.
Lemma fullScale_valid t : validPCM (fullScale t).
Proof. destruct t as [[]|[]| |]; exact (conj eq_refl (conj eq_refl (conj eq_refl eq_refl))). Qed.
Lemma samePCM_settings wrapv host f v t : samePCM host f v t ->
  setting wrapv host true f v None (readChain host (byteOrder f) t) t t /\ setting wrapv host false f v None (writeChain host (byteOrder f) t) t t.
Proof.
  intros S. destruct (samePCM_user _ _ _ _ S) as (FV & RV & OV & CV & PV). destruct (chains wrapv host f v t S) as [A1 A2]. destruct S as [F R P C N U]. clear U.
  split; constructor; auto; try (rewrite P, PV; split; apply fullScale_valid); try (rewrite CV; auto); apply default_rows; lia.
Qed.

(** ** The chains leave the samples as they are *)
Definition smallU (s : smp) : Prop := match s with SU c z => inUnsigned c z | _ => True end.
Lemma sign_twice c z : c <> kInt32 -> inUnsigned c z -> rbind (run1 (MSign c false) (SU c z)) (run1 (MSign c true)) = Ok (SU c z).
Proof.
  intros N H. cbn [run1]. rewrite Z.eqb_refl. rewrite (utos c z H). cbn [rbind run1]. rewrite Z.eqb_refl. unfold rmap. rewrite stou; [|exact N|].
  - cbn [rbind]. do 2 f_equal. lia.
  - unfold inUnsigned in H. unfold inSigned. destruct c; cbn [bits] in *; lia.
Qed.
Lemma rmapM_id_on {A} (f : A -> res A) l : Forall (fun a => f a = Ok a) l -> rmapM f l = Ok l.
Proof. induction 1 as [|a l H _ IH]; [reflexivity|]. cbn [rmapM]. rewrite H. cbn [rbind]. rewrite IH. reflexivity. Qed.
Lemma runChain_app a b fr : runChain (a ++ b) fr = rbind (runChain a fr) (runChain b).
Proof. revert fr. induction a as [|m a IH]; intros fr; [reflexivity|]. cbn [app runChain]. destruct (runModule m fr); cbn [rbind]; auto. Qed.
Lemma rmapM_compose {A B C} (f : A -> res B) (g : B -> res C) l r : rmapM (fun a => rbind (f a) g) l = Ok r -> rbind (rmapM f l) (rmapM g) = Ok r.
Proof. intros H. apply rmapM_bind in H as (m & -> & H). exact H. Qed.
Lemma core_keeps t fr : t <> TU kInt32 -> Forall (fun s => tyOf s = t /\ smallU s) fr -> runChain (coreOf t) fr = Ok fr.
Proof.
  intros N H. destruct t as [c|c| |]; try reflexivity. cbn [coreOf runChain]. cbn [runModule].
  enough (X : rbind (rmapM (run1 (MSign c false)) fr) (rmapM (run1 (MSign c true))) = Ok fr).
  { destruct (rmapM (run1 (MSign c false)) fr); try discriminate. cbn [rbind] in *. rewrite X. reflexivity. }
  apply rmapM_compose. apply rmapM_id_on. eapply Forall_impl; [|exact H]. intros s [T U]. destruct s; try discriminate. cbn in T. assert (c0 = c) as -> by congruence. cbn [smallU] in U. apply sign_twice; auto. congruence.
Qed.
Lemma keeps_when b m fr : (forall s, run1 m s = Ok s) -> (forall c r, m <> MMatrix c r) -> runChain (when b [m]) fr = Ok fr.
Proof.
  intros H N. destruct b; [|reflexivity]. cbn [when runChain]. replace (runModule m fr) with (rmapM (run1 m) fr) by (destruct m; try reflexivity; now elim (N c rows)). rewrite rmapM_id_on by (apply Forall_forall; auto). reflexivity.
Qed.
Lemma readChain_keeps host o t fr : t <> TU kInt32 -> Forall (fun s => tyOf s = t /\ smallU s) fr -> runChain (readChain host o t) fr = Ok fr.
Proof. intros N H. unfold readChain, swapOf. rewrite runChain_app, keeps_when by (reflexivity || discriminate). cbn [rbind]. rewrite runChain_app, keeps_when by (reflexivity || discriminate). cbn [rbind]. now apply core_keeps. Qed.
Lemma writeChain_keeps host o t fr : t <> TU kInt32 -> Forall (fun s => tyOf s = t /\ smallU s) fr -> runChain (writeChain host o t) fr = Ok fr.
Proof. intros N H. unfold writeChain, swapOf. rewrite runChain_app, core_keeps by auto. cbn [rbind]. rewrite runChain_app, keeps_when by (reflexivity || discriminate). cbn [rbind]. apply keeps_when; (reflexivity || discriminate). Qed.

(** ** Bytes as lists of samples *)
Definition decs (o : order) (t : ty) (k n : nat) (d : list Z) : list smp := map (dec o t) (groups k n d).
Lemma framesIn_decs o t k ch n d : framesIn o t k ch n d = groups (Z.to_nat ch) (Z.to_nat n) (decs o t (Z.to_nat k) (Z.to_nat (n * ch)) d).
Proof. reflexivity. Qed.
Lemma groups_inj {A} k n (a b : list A) : length a = (n * k)%nat -> length b = (n * k)%nat -> groups k n a = groups k n b -> a = b.
Proof. intros La Lb E. destruct (groups_len k n a La) as (<- & _). destruct (groups_len k n b Lb) as (<- & _). now rewrite E. Qed.
Lemma decs_len o t k n d : length (decs o t k n d) = n.
Proof. unfold decs. rewrite map_length. revert d. induction n as [|n IH]; intros d; [reflexivity|]. cbn [groups length]. now rewrite IH. Qed.
Lemma map_inj_on {A B} (f : A -> B) (P : A -> Prop) : (forall a b, P a -> P b -> f a = f b -> a = b) -> forall l l', Forall P l -> Forall P l' -> map f l = map f l' -> l = l'.
Proof. intros I l. induction l as [|a l IH]; intros [|b l'] H H' E; try discriminate; [reflexivity|]. inversion H; inversion H'; subst. cbn [map] in E. f_equal; [apply I; auto; congruence|apply IH; auto; congruence]. Qed.
(** Bytes of integers are determined by the samples they stand for. *)
Lemma framesIn_inj o t k ch n a b : (match t with TF | TD => False | _ => True end) -> 0 <= ch -> 0 <= n -> bytes_ok a = true -> bytes_ok b = true ->
  zlen a = Z.of_nat k * (n * ch) -> zlen b = Z.of_nat k * (n * ch) -> framesIn o t (Z.of_nat k) ch n a = framesIn o t (Z.of_nat k) ch n b -> a = b.
Proof.
  intros I C N Ba Bb La Lb E. rewrite !framesIn_decs, Nat2Z.id in E. assert (NC : 0 <= n * ch) by (apply Z.mul_nonneg_nonneg; lia).
  assert (LA : length a = (Z.to_nat (n * ch) * k)%nat) by (unfold zlen in La; nia). assert (LB : length b = (Z.to_nat (n * ch) * k)%nat) by (unfold zlen in Lb; nia).
  apply groups_inj in E; try (rewrite decs_len; apply Z2Nat.inj_mul; lia). unfold decs in E.
  destruct (cells_of _ _ _ LA Ba) as (A1 & A2 & _). destruct (cells_of _ _ _ LB Bb) as (B1 & B2 & _).
  apply (map_inj_on _ (fun c => length c = k /\ bytes_ok c = true)) in E; auto; [congruence|]. intros c c' [L1 O1] [L2 O2]. apply dec_inj; auto. congruence.
Qed.
Lemma rmapM_chain ms frs : Forall (fun fr => runChain ms fr = Ok fr) frs -> rmapM (runChain ms) frs = Ok frs. Proof. apply rmapM_id_on. Qed.
Lemma Forall_groups {A} (P : A -> Prop) k n l : Forall P l -> Forall (Forall P) (groups k n l). Proof. apply groups_Forall. Qed.
Lemma isCells_map k k' f cells : (forall c, length c = k -> bytes_ok c = true -> length (f c) = k' /\ bytes_ok (f c) = true) -> isCells k cells -> isCells k' (map f cells).
Proof. intros H C. apply Forall_map. eapply Forall_impl; [|exact C]. intros c [L B]. apply H; auto. Qed.
Lemma groups_map {A B} (f : A -> B) k n : forall l, groups k n (map f l) = map (map f) (groups k n l).
Proof. induction n as [|n IH]; intros l; [reflexivity|]. cbn [groups map]. now rewrite firstn_map, skipn_map, IH. Qed.
Lemma groups_prefix {A} k n : forall (a b : list A), length a = (n * k)%nat -> groups k n (a ++ b) = groups k n a.
Proof.
  induction n as [|n IH]; intros a b L; [reflexivity|]. cbn [groups]. rewrite firstn_app, skipn_app. replace (k - length a)%nat with 0%nat by lia. cbn [firstn skipn]. rewrite app_nil_r. f_equal. apply IH. rewrite skipn_length. lia.
Qed.
Lemma cells_len t ch n (d : list Z) k : 0 <= ch -> 0 <= n -> zlen d = n * (Z.of_nat k * ch) -> k = tysize t \/ k = packedSize t -> length d = (Z.to_nat (n * ch) * k)%nat.
Proof. intros C N L _. unfold zlen in L. assert (0 <= n * ch) by (apply Z.mul_nonneg_nonneg; lia). nia. Qed.
Lemma framesIn_cells o t k ch n (cells : list (list Z)) (f : list Z -> list Z) : isCells k (map f cells) -> length cells = Z.to_nat (n * ch) -> framesIn o t (Z.of_nat k) ch n (concat (map f cells)) = groups (Z.to_nat ch) (Z.to_nat n) (map (fun c => dec o t (f c)) cells).
Proof.
  intros C L. rewrite framesIn_decs, Nat2Z.id. unfold decs. rewrite <- L, <- (map_length f cells). rewrite <- (app_nil_r (concat (map f cells))), groups_concat by (apply isCells_len; exact C). now rewrite map_map.
Qed.
Section Frames.
Context (wrapv : bool) (host : order) (f v : format) (t : ty) (S : samePCM host f v t).
Let o := byteOrder f.
Let ch := channelCount f.
Lemma toFile_frames_len n u : 0 <= n -> bytes_ok u = true -> zlen u = n * (userBytes t * ch) -> zlen (framesToFile host o t ch n u) = n * (fileBytes t * ch) /\ bytes_ok (framesToFile host o t ch n u) = true.
Proof.
  intros N B L. pose proof (p_chan _ _ _ _ S) as C. fold ch in C. rewrite <- userBytes_val in L. pose proof (cells_len t ch n u (tysize t) ltac:(lia) N L (or_introl eq_refl)) as LN.
  destruct (cells_of _ _ _ LN B) as (A1 & A2 & A3). unfold framesToFile. set (cells := groups _ _ u) in *.
  assert (IC : isCells (packedSize t) (map (toFile host o t) cells)) by (eapply isCells_map; [|exact A1]; intros c Lc Bc; split; [now apply toFile_len|now apply toFile_ok]).
  split; [|eapply bytes_ok_concat; exact IC]. rewrite (zlen_concat_cells (packedSize t)) by (apply isCells_len; exact IC). rewrite zlen_map. unfold zlen. rewrite A3, <- fileBytes_val. assert (0 <= n * ch) by (apply Z.mul_nonneg_nonneg; lia). nia.
Qed.
Lemma toCaller_frames_len n d : 0 <= n -> bytes_ok d = true -> zlen d = n * (fileBytes t * ch) -> zlen (framesToCaller host o t ch n d) = n * (userBytes t * ch) /\ bytes_ok (framesToCaller host o t ch n d) = true.
Proof.
  intros N B L. pose proof (p_chan _ _ _ _ S) as C. fold ch in C. rewrite <- fileBytes_val in L. pose proof (cells_len t ch n d (packedSize t) ltac:(lia) N L (or_intror eq_refl)) as LN.
  destruct (cells_of _ _ _ LN B) as (A1 & A2 & A3). unfold framesToCaller. set (cells := groups _ _ d) in *.
  assert (IC : isCells (tysize t) (map (toCaller host o t) cells)) by (eapply isCells_map; [|exact A1]; intros c Lc Bc; split; [now apply toCaller_len|now apply toCaller_ok]).
  split; [|eapply bytes_ok_concat; exact IC]. rewrite (zlen_concat_cells (tysize t)) by (apply isCells_len; exact IC). rewrite zlen_map. unfold zlen. rewrite A3, <- userBytes_val. assert (0 <= n * ch) by (apply Z.mul_nonneg_nonneg; lia). nia.
Qed.
(** What is written and read again is what was written. *)
Lemma toCaller_toFile_frames n u : 0 <= n -> bytes_ok u = true -> zlen u = n * (userBytes t * ch) -> Forall (inBytes host t) (groups (tysize t) (Z.to_nat (n * ch)) u) ->
  framesToCaller host o t ch n (framesToFile host o t ch n u) = u.
Proof.
  intros N B L I. pose proof (p_chan _ _ _ _ S) as C. fold ch in C. rewrite <- userBytes_val in L. pose proof (cells_len t ch n u (tysize t) ltac:(lia) N L (or_introl eq_refl)) as LN.
  destruct (cells_of _ _ _ LN B) as (A1 & A2 & A3). unfold framesToFile, framesToCaller. set (cells := groups (tysize t) _ u) in *.
  assert (IC : isCells (packedSize t) (map (toFile host o t) cells)) by (eapply isCells_map; [|exact A1]; intros c Lc Bc; split; [now apply toFile_len|now apply toFile_ok]).
  rewrite <- A3 at 1. rewrite <- (map_length (toFile host o t) cells). rewrite <- (app_nil_r (concat (map (toFile host o t) cells))), groups_concat by (apply isCells_len; exact IC). rewrite map_map.
  transitivity (concat cells); [|exact A2]. f_equal. transitivity (map (fun c => c) cells); [|apply map_id]. apply map_ext_in. intros c Hc. unfold isCells in A1. rewrite Forall_forall in A1, I. destruct (A1 c Hc). apply toCaller_toFile; auto.
Qed.
(** ** Integers: from the layout of the samples *)
Lemma dec_small o' c k : k = tysize t \/ k = packedSize t -> length c = k -> bytes_ok c = true -> (is24 t = true -> k = packedSize t \/ inBytes host t c /\ o' = host) -> tyOf (dec o' t c) = t /\ smallU (dec o' t c).
Proof.
  intros K L B H24. split; [apply dec_facts; auto; destruct K; subst; auto|]. destruct t as [|ci| |] eqn:Et; try exact I. cbn [dec smallU]. pose proof (load_range o' c B) as R. unfold zlen in R. rewrite L in R.
  unfold inUnsigned. destruct ci.
  - destruct K; subst k; exact R.
  - destruct K; subst k; exact R.
  - destruct (H24 eq_refl) as [->|[IB ->]]; [exact R|]. destruct K as [->| ->]; [|exact R]. cbn [tysize] in *. destruct (len4 c L) as (b0 & b1 & b2 & b3 & ->). specialize (IB eq_refl). unfold toCaller, toFile, ordered in IB. rewrite order_eqb_refl in IB. cbn [is24] in IB.
    apply byte_split in B. repeat match goal with H : Forall _ (_ :: _) |- _ => apply Forall_cons_iff in H as [? H] end. rewrite load4. destruct host; cbn [firstn skipn app fill] in IB; cbn [bits]; change (2 ^ 24) with 16777216; [assert (b0 = 0) by congruence|assert (b3 = 0) by congruence]; lia.
  - destruct K; subst k; exact R.
Qed.
Lemma push_int n user rest bufs lastb packet own : (match t with TF | TD => False | _ => True end) -> 0 <= n <= 1024 -> bytes_ok (user ++ rest) = true -> zlen user = n * (userBytes t * ch) ->
  Forall (inBytes host t) (groups (tysize t) (Z.to_nat (n * ch)) user) ->
  length bufs = pred (length (writeChain host o t)) -> Forall (fun b => writeCapacity (writeChain host o t) v packet own <= zlen b) (lastb :: bufs) ->
  pushMem host (writeChain host o t) v n (user ++ rest) bufs lastb (n * (fileBytes t * ch)) = Ok (framesToFile host o t ch n user).
Proof.
  intros I N B L IB LB CB. pose proof (p_chan _ _ _ _ S) as C. fold ch in C. destruct (samePCM_user _ _ _ _ S) as (FV & RV & OV & CV & PV). destruct (samePCM_settings wrapv _ _ _ _ S) as [_ SW]. fold o in SW.
  assert (BU : bytes_ok user = true) by (apply bytes_ok_Forall in B; apply Forall_app in B as [B _]; now apply bytes_ok_Forall).
  rewrite <- userBytes_val in L. pose proof (cells_len t ch n user (tysize t) ltac:(lia) ltac:(lia) L (or_introl eq_refl)) as LN. rewrite userBytes_val in L.
  destruct (cells_of _ _ _ LN BU) as (A1 & A2 & A3). set (frs := groups (Z.to_nat ch) (Z.to_nat n) (decs host t (tysize t) (Z.to_nat (n * ch)) user)).
  assert (EF : framesIn (byteOrder v) t (userBytes t) (channelCount v) n (user ++ rest) = frs).
  { rewrite OV, CV, framesIn_decs, <- userBytes_val, Nat2Z.id. unfold decs. fold ch. rewrite groups_prefix by exact LN. reflexivity. }
  assert (RC : rmapM (runChain (writeChain host o t)) frs = Ok frs).
  { apply rmapM_chain. eapply Forall_impl; [|apply (Forall_groups (fun s => tyOf s = t /\ smallU s))].
    - intros fr Hf. cbv beta in Hf. apply writeChain_keeps; [exact (p_no32 _ _ _ _ S)|exact Hf].
    - unfold decs. apply Forall_map. unfold isCells in A1. rewrite Forall_forall in A1, IB. apply Forall_forall. intros c Hc. destruct (A1 c Hc). apply (dec_small host c (tysize t)); auto. }
  destruct (write_piece wrapv host f v None _ t t n (user ++ rest) bufs lastb frs packet own SW) as (d & D1 & D2 & D3 & D4); auto.
  - rewrite CV. fold ch. rewrite zlen_app, L. pose proof (zlen_nonneg rest). lia.
  - rewrite EF. exact RC.
  - fold ch in D1, D2, D4. rewrite D1. f_equal. destruct (toFile_frames_len n user ltac:(lia) BU L) as [LF BF].
    apply (framesIn_inj o t (packedSize t) ch n); auto; try lia.
    + rewrite D2, fileBytes_val. ring.
    + rewrite LF, fileBytes_val. ring.
    + assert (FD : fileDescribe host f = f) by (unfold fileDescribe; now rewrite (p_raw _ _ _ _ S)). rewrite FD in D4. fold o in D4. rewrite fileBytes_val, D4. unfold framesToFile. rewrite <- fileBytes_val.
      rewrite (framesIn_cells o t (packedSize t)).
      2:{ eapply isCells_map; [|exact A1]; intros c Lc Bc; split; [now apply toFile_len|now apply toFile_ok]. }
      2:{ exact A3. }
      unfold frs, decs. rewrite <- groups_map. f_equal. rewrite map_map. apply map_ext_in. intros c Hc. unfold isCells in A1. rewrite Forall_forall in A1. destruct (A1 c Hc). symmetry. now apply dec_toFile.
Qed.
Lemma pull_int n data bufs user packet own : (match t with TF | TD => False | _ => True end) -> 0 <= n <= 1024 -> bytes_ok data = true -> zlen data = n * (fileBytes t * ch) ->
  length bufs = length (readChain host o t) -> Forall (fun b => readCapacity (readChain host o t) f packet own <= zlen b) bufs -> n * (userBytes t * ch) <= zlen user ->
  pullMem host (readChain host o t) f n data bufs user = Ok (framesToCaller host o t ch n data ++ zskipn (n * (userBytes t * ch)) user).
Proof.
  intros I N B L LB CB ZU. pose proof (p_chan _ _ _ _ S) as C. fold ch in C. destruct (samePCM_user _ _ _ _ S) as (FV & RV & OV & CV & PV). destruct (samePCM_settings wrapv _ _ _ _ S) as [SR _]. fold o in SR.
  assert (FD : fileDescribe host f = f) by (unfold fileDescribe; now rewrite (p_raw _ _ _ _ S)).
  rewrite <- fileBytes_val in L. pose proof (cells_len t ch n data (packedSize t) ltac:(lia) ltac:(lia) L (or_intror eq_refl)) as LN. rewrite fileBytes_val in L.
  destruct (cells_of _ _ _ LN B) as (A1 & A2 & A3). set (frs := groups (Z.to_nat ch) (Z.to_nat n) (decs o t (packedSize t) (Z.to_nat (n * ch)) data)).
  assert (EF : framesIn (byteOrder (fileDescribe host f)) t (fileBytes t) (channelCount f) n data = frs).
  { rewrite FD, framesIn_decs, <- fileBytes_val, Nat2Z.id. reflexivity. }
  assert (RC : rmapM (runChain (readChain host o t)) frs = Ok frs).
  { apply rmapM_chain. eapply Forall_impl; [|apply (Forall_groups (fun s => tyOf s = t /\ smallU s))].
    - intros fr Hf. cbv beta in Hf. apply readChain_keeps; [exact (p_no32 _ _ _ _ S)|exact Hf].
    - unfold decs. apply Forall_map. unfold isCells in A1. rewrite Forall_forall in A1. apply Forall_forall. intros c Hc. destruct (A1 c Hc). apply (dec_small o c (packedSize t)); auto. }
  destruct (read_piece wrapv host f v None _ t t n data bufs user frs packet own SR) as (d & D1 & D2 & D3 & D4); auto.
  - rewrite FD. exact CB.
  - rewrite CV. exact ZU.
  - rewrite EF. exact RC.
  - rewrite FD in D1. rewrite CV in D2, D4. fold ch in D2, D4. rewrite D1. rewrite D2. f_equal. f_equal. destruct (toCaller_frames_len n data ltac:(lia) B L) as [LF BF].
    apply (framesIn_inj host t (tysize t) ch n); auto; try lia.
    + rewrite D2, userBytes_val. ring.
    + rewrite LF, userBytes_val. ring.
    + rewrite OV in D4. rewrite userBytes_val, D4. unfold framesToCaller. rewrite <- userBytes_val.
      rewrite (framesIn_cells host t (tysize t)).
      2:{ eapply isCells_map; [|exact A1]; intros c Lc Bc; split; [now apply toCaller_len|now apply toCaller_ok]. }
      2:{ exact A3. }
      unfold frs, decs. f_equal. apply map_ext_in. intros c Hc. unfold isCells in A1. rewrite Forall_forall in A1. destruct (A1 c Hc). symmetry. now apply dec_toCaller.
Qed.
(** ** Floating point: the bytes as they are (a NaN keeps its bits) *)
Lemma swap_run n g inb rest outb : fmtTy g = Some t -> channelCount g = ch -> (match t with TF | TD => True | _ => False end) -> 0 <= n <= 1024 -> bytes_ok inb = true -> zlen inb = n * (fileBytes t * ch) -> zlen inb <= zlen outb ->
  runMem host MSwap g n (inb ++ rest) outb = Ok (concat (map (@rev Z) (groups (packedSize t) (Z.to_nat (n * ch)) inb)) ++ zskipn (zlen inb) outb).
Proof.
  intros FG CG I N B L ZO. pose proof (p_chan _ _ _ _ S) as C. fold ch in C. destruct (fmt_bps _ _ FG) as [B1 _]. unfold runMem. rewrite B1, CG.
  assert (NC : 0 <= n * ch < 2 ^ 31) by (change (2 ^ 18) with 262144 in C; change (2 ^ 31) with 2147483648; nia).
  rewrite (u64_small ch) by (change (2 ^ 18) with 262144 in C; change (2 ^ 64) with 18446744073709551616; lia). rewrite u64_small by (change (2 ^ 31) with 2147483648 in NC; change (2 ^ 64) with 18446744073709551616; lia). rewrite s32_small by exact NC.
  replace ((Z.of_nat (packedSize t) =? 2) || (Z.of_nat (packedSize t) =? 3) || (Z.of_nat (packedSize t) =? 4) || (Z.of_nat (packedSize t) =? 8)) with true by (destruct t; try contradiction; reflexivity).
  rewrite Nat2Z.id. rewrite <- fileBytes_val in L. pose proof (cells_len t ch n inb (packedSize t) ltac:(lia) ltac:(lia) L (or_intror eq_refl)) as LN. destruct (cells_of _ _ _ LN B) as (A1 & A2 & A3).
  set (cells := groups _ _ inb) in *. clearbody cells.
  assert (IC : isCells (packedSize t) (map (@rev Z) cells)). { eapply isCells_map; [|exact A1]. intros c Lc Bc. rewrite rev_length, bytes_ok_rev. auto. }
  assert (ZC : zlen (concat (map (@rev Z) cells)) = zlen inb). { rewrite (zlen_concat_cells (packedSize t)) by (apply isCells_len; exact IC). rewrite zlen_map. rewrite <- A2, (zlen_concat_cells (packedSize t)) by (apply isCells_len; exact A1). reflexivity. }
  rewrite <- A2 at 1. rewrite (mapCells_ok (packedSize t) _ cells (map (@rev Z) cells)).
  - rewrite ZC. reflexivity.
  - apply isCells_len. exact A1.
  - unfold zlen. rewrite A3. lia.
  - rewrite <- rmapM_pure. clear -A1 I. induction cells as [|c cells IH]; [reflexivity|]. unfold isCells in A1. apply Forall_cons_iff in A1 as [[Lc Bc] A1]. cbn [rmapM]. rewrite (IH A1). rewrite swap_sample_rev; auto. rewrite Lc. destruct t; try contradiction; cbn; auto.
  - rewrite ZC. exact ZO.
Qed.
Lemma ordered_map c : packedSize t <> 1%nat -> ordered host o c = if otherOrder o host && (1 <? Z.of_nat (packedSize t)) then rev c else c.
Proof. intros H. unfold ordered. replace (1 <? Z.of_nat (packedSize t)) with true by (destruct t as [[]|[]| |]; try reflexivity; now elim H). destruct host, o; reflexivity. Qed.
Lemma float_chains : (match t with TF | TD => True | _ => False end) -> readChain host o t = swapOf host o t /\ writeChain host o t = swapOf host o t.
Proof. intros I. unfold readChain, writeChain. destruct t; try contradiction; cbn [is24 when coreOf app]; rewrite ?app_nil_r; auto. Qed.
Lemma float_file : (match t with TF | TD => True | _ => False end) -> userBytes t = fileBytes t /\ tysize t = packedSize t /\ is24 t = false /\ packedSize t <> 1%nat.
Proof. destruct t; try contradiction; repeat split; discriminate. Qed.
Lemma push_float n user rest bufs lastb packet own : (match t with TF | TD => True | _ => False end) -> 0 <= n <= 1024 -> bytes_ok (user ++ rest) = true -> zlen user = n * (userBytes t * ch) ->
  length bufs = pred (length (writeChain host o t)) -> Forall (fun b => writeCapacity (writeChain host o t) v packet own <= zlen b) (lastb :: bufs) ->
  pushMem host (writeChain host o t) v n (user ++ rest) bufs lastb (n * (fileBytes t * ch)) = Ok (framesToFile host o t ch n user).
Proof.
  intros I N B L LB CB. pose proof (p_chan _ _ _ _ S) as C. fold ch in C. destruct (samePCM_user _ _ _ _ S) as (FV & RV & OV & CV & PV). destruct (float_chains I) as [_ EW]. destruct (float_file I) as (U1 & U2 & U3 & U4).
  assert (BU : bytes_ok user = true) by (apply bytes_ok_Forall in B; apply Forall_app in B as [B _]; now apply bytes_ok_Forall).
  assert (LN : length user = (Z.to_nat (n * ch) * packedSize t)%nat). { rewrite U1, <- fileBytes_val in L. exact (cells_len t ch n user (packedSize t) ltac:(lia) ltac:(lia) L (or_intror eq_refl)). }
  destruct (cells_of _ _ _ LN BU) as (A1 & A2 & A3).
  assert (CP : n * (fileBytes t * ch) <= zlen lastb).
  { apply Forall_cons_iff in CB as [CB _]. clear -CB N C FV RV CV S U1.
    assert (G : bufSize 1024 v <= writeCapacity (writeChain host o t) v packet own). { unfold writeCapacity, maxBufSize. apply fold_max_ge. right. apply in_app_iff. left. apply in_map_iff. exists v. split; [reflexivity|]. destruct (writeChain host o t); left; reflexivity. }
    rewrite (proj2 (bufSize_val 1024 v t FV RV ltac:(rewrite CV; fold ch; lia) ltac:(lia) ltac:(rewrite userBytes_val, CV; fold ch; change (2 ^ 18) with 262144 in C; change (2 ^ 31) with 2147483648; destruct t as [[]|[]| |]; cbn [userBytes]; lia) ltac:(rewrite CV; fold ch; change (2 ^ 18) with 262144 in C; change (2 ^ 31) with 2147483648; lia))) in G.
    - rewrite userBytes_val, U1, CV in G. fold ch in G. assert (0 <= fileBytes t * ch) by (rewrite <- fileBytes_val; nia). nia. }
  unfold pushMem, framesToFile. rewrite EW, U2. unfold swapOf. unfold toFile. rewrite U3.
  rewrite (map_ext _ (fun c => if otherOrder o host && (1 <? Z.of_nat (packedSize t)) then rev c else c)) by (intros c; now apply ordered_map).
  destruct (otherOrder o host && (1 <? Z.of_nat (packedSize t))) eqn:SWP; cbn [when].
  - cbn [runMods]. rewrite swap_run; auto; try (rewrite L, U1; auto). cbn [rbind].
    set (D := concat _). assert (ZD : zlen D = n * (fileBytes t * ch)). { unfold D. rewrite (zlen_concat_cells (packedSize t)); [rewrite zlen_map; unfold zlen; rewrite A3, <- fileBytes_val; assert (0 <= n * ch) by (apply Z.mul_nonneg_nonneg; lia); nia|].
      apply Forall_map. eapply Forall_impl; [|exact A1]. intros c [Lc _]. cbv beta. now rewrite rev_length. }
    rewrite zlen_app, ZD. pose proof (zlen_nonneg (zskipn (n * (fileBytes t * ch)) lastb)). replace (_ <=? _) with true by lia. rewrite <- ZD, zfirstn_exact. reflexivity.
  - cbn [rbind]. rewrite zlen_app, L, U1. pose proof (zlen_nonneg rest). replace (_ <=? _) with true by lia. rewrite <- U1, <- L, zfirstn_exact. rewrite map_id, A2. reflexivity.
Qed.
Lemma pull_float n data bufs user packet own : (match t with TF | TD => True | _ => False end) -> 0 <= n <= 1024 -> bytes_ok data = true -> zlen data = n * (fileBytes t * ch) ->
  length bufs = length (readChain host o t) -> Forall (fun b => readCapacity (readChain host o t) f packet own <= zlen b) bufs -> n * (userBytes t * ch) <= zlen user ->
  pullMem host (readChain host o t) f n data bufs user = Ok (framesToCaller host o t ch n data ++ zskipn (n * (userBytes t * ch)) user).
Proof.
  intros I N B L LB CB ZU. pose proof (p_chan _ _ _ _ S) as C. fold ch in C. destruct (float_chains I) as [ER _]. destruct (float_file I) as (U1 & U2 & U3 & U4). pose proof (p_file _ _ _ _ S) as FF. pose proof (p_raw _ _ _ _ S) as FR.
  assert (LN : length data = (Z.to_nat (n * ch) * packedSize t)%nat). { rewrite <- fileBytes_val in L. exact (cells_len t ch n data (packedSize t) ltac:(lia) ltac:(lia) L (or_intror eq_refl)). }
  destruct (cells_of _ _ _ LN B) as (A1 & A2 & A3).
  assert (CP : Forall (fun b => n * (fileBytes t * ch) <= zlen b) bufs).
  { eapply Forall_impl; [|exact CB]. intros b Hb. cbv beta in Hb.
    assert (G : bufSize 1024 f <= readCapacity (readChain host o t) f packet own). { unfold readCapacity, maxBufSize. apply fold_max_ge. right. apply in_app_iff. left. apply in_map_iff. exists f. split; [reflexivity|]. destruct (readChain host o t); left; reflexivity. }
    rewrite (proj2 (bufSize_val 1024 f t FF FR ltac:(fold ch; lia) ltac:(lia) ltac:(rewrite userBytes_val; fold ch; change (2 ^ 18) with 262144 in C; change (2 ^ 31) with 2147483648; destruct t as [[]|[]| |]; cbn [userBytes]; lia) ltac:(fold ch; change (2 ^ 18) with 262144 in C; change (2 ^ 31) with 2147483648; lia))) in G.
    - rewrite userBytes_val, U1 in G. fold ch in G. assert (0 <= fileBytes t * ch) by (rewrite <- fileBytes_val; nia). nia. }
  unfold pullMem, framesToCaller. rewrite ER in *. unfold swapOf in *. unfold toCaller. rewrite U3. cbv zeta.
  rewrite (map_ext _ (fun c => if otherOrder o host && (1 <? Z.of_nat (packedSize t)) then rev c else c)) by (intros c; now apply ordered_map).
  rewrite U1 in *.
  destruct (otherOrder o host && (1 <? Z.of_nat (packedSize t))) eqn:SWP; cbn [when] in *.
  - destruct bufs as [|b bufs]; [discriminate|]. apply Forall_cons_iff in CP as [CP _]. unfold put. rewrite L. replace (_ <=? _) with true by lia. cbn [rbind runMods].
    rewrite swap_run; auto; [|rewrite L; lia]. rewrite L. reflexivity.
  - unfold put. rewrite L. replace (_ <=? _) with true by lia. rewrite map_id, A2. reflexivity.
Qed.
(** ** Both *)
Lemma push_bytes n user rest bufs lastb packet own : 0 <= n <= 1024 -> bytes_ok (user ++ rest) = true -> zlen user = n * (userBytes t * ch) ->
  Forall (inBytes host t) (groups (tysize t) (Z.to_nat (n * ch)) user) ->
  length bufs = pred (length (writeChain host o t)) -> Forall (fun b => writeCapacity (writeChain host o t) v packet own <= zlen b) (lastb :: bufs) ->
  pushMem host (writeChain host o t) v n (user ++ rest) bufs lastb (n * (fileBytes t * ch)) = Ok (framesToFile host o t ch n user).
Proof.
  intros. assert (D : (match t with TF | TD => False | _ => True end) \/ (match t with TF | TD => True | _ => False end)) by (destruct t; auto). destruct D; [eapply push_int|eapply push_float]; eauto.
Qed.
Lemma pull_bytes n data bufs user packet own : 0 <= n <= 1024 -> bytes_ok data = true -> zlen data = n * (fileBytes t * ch) ->
  length bufs = length (readChain host o t) -> Forall (fun b => readCapacity (readChain host o t) f packet own <= zlen b) bufs -> n * (userBytes t * ch) <= zlen user ->
  pullMem host (readChain host o t) f n data bufs user = Ok (framesToCaller host o t ch n data ++ zskipn (n * (userBytes t * ch)) user).
Proof.
  intros. assert (D : (match t with TF | TD => False | _ => True end) \/ (match t with TF | TD => True | _ => False end)) by (destruct t; auto). destruct D; [eapply pull_int|eapply pull_float]; eauto.
Qed.
End Frames.
