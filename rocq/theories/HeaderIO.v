(** * Reading and writing headers: FileHandle.cpp:351-500, AudioFormat.cpp, Track.cpp *)
From Verif Require Import Prelude PreludeFacts ByteOrder FileIO Codecs.

(** ** Sample formats (AudioFormat.h:38-52) *)
Inductive sampfmt := TwosComp | Unsigned | Float | Double.
Inductive compression := CNone | CUlaw | CAlaw | CIMA | CMSADPCM | CFLAC | CALAC.
Definition sampfmt_eqb (a b : sampfmt) : bool :=
  match a, b with TwosComp, TwosComp | Unsigned, Unsigned | Float, Float | Double, Double => true | _, _ => false end.
Definition compression_eqb (a b : compression) : bool :=
  match a, b with
  | CNone, CNone | CUlaw, CUlaw | CAlaw, CAlaw | CIMA, CIMA | CMSADPCM, CMSADPCM | CFLAC, CFLAC | CALAC, CALAC => true
  | _, _ => false end.

(** Sample rates are doubles in the code: [R] is the type of sample rates of a format's model, whole numbers of
    hertz ([Z]) or doubles ([spec_float]). *)
Record formatOf (R : Type) := mkFmt {
  f_rate : R; f_sf : sampfmt; f_width : Z; f_chan : Z; f_order : order; f_comp : compression; f_fpp : Z; f_bpp : Z }.

(** What a header reader finds out. *)
Record parsedOf (R : Type) := mkParsed { p_fmt : formatOf R; p_first : Z; p_dsize : Z; p_total : Z }.
Arguments mkFmt {R}. Arguments f_rate {R}. Arguments f_sf {R}. Arguments f_width {R}. Arguments f_chan {R}. Arguments f_order {R}.
Arguments f_comp {R}. Arguments f_fpp {R}. Arguments f_bpp {R}.
Arguments mkParsed {R}. Arguments p_fmt {R}. Arguments p_first {R}. Arguments p_dsize {R}. Arguments p_total {R}.
Notation format := (formatOf Z).
Notation parsed := (parsedOf Z).

(** Track.cpp:139-143 [computeTotalFileFrames]: data_size is signed, bytesPerPacket is a size_t, so the
    division is unsigned; [t0] is the value the field had. *)
Definition computeTotal {R} (t0 dsize : Z) (f : formatOf R) : Z :=
  if (f_bpp f =? 0) || (f_fpp f =? 0) then t0 else s64 (u64 (u64 dsize / f_bpp f * f_fpp f)).

(** AudioFormat.cpp:98-103 [computeBytesPerPacketPCM]: int multiplication, stored in a size_t. *)
Definition bppPCM (width chan : Z) : res Z := do x <- ck32 (Z.quot (width + 7) 8 * chan); Ok (u64 x).

(** ** Header readers: the file position, success or failure of the library call, undefined behaviour *)
Definition hP (A : Type) : Type := file -> res (option (A * file)).
Definition hret {A} (a : A) : hP A := fun f => Ok (Some (a, f)).
Definition hbind {A C} (p : hP A) (k : A -> hP C) : hP C :=
  fun f => do r <- p f; match r with Some (a, f) => k a f | None => Ok None end.
Definition hfail {A} : hP A := fun _ => Ok None.
Notation "'let!' x ':=' p 'in' k" := (hbind p (fun x => k)) (at level 200, x pattern, p at level 100, k at level 200, right associativity).
Definition hassert {B : Build} (b : bool) : hP unit := fun f => do _ <- rassert b; Ok (Some (tt, f)).
Definition hlift {A} (r : res A) : hP A := fun f => do a <- r; Ok (Some (a, f)).

Definition hread (n : Z) : hP (list Z) := fun f => let '(d, f) := fread f n in Ok (Some (d, f)).
Definition hseek (n : Z) : hP unit := fun f => Ok (Some (tt, fseek f n)).
Definition hskip (n : Z) : hP unit := fun f => Ok (Some (tt, fseek f (fpos f + n))).
Definition htell : hP Z := fun f => Ok (Some (fpos f, f)).
Definition hlength : hP Z := fun f => Ok (Some (flength f, f)).

(** The value of an [n]-byte unsigned integer. *)
Definition valueOf (o : order) (b : list Z) : Z := match o with BigEndian => be_val b | LittleEndian => le_val b end.

(** FileHandle.cpp:351-392 [readU8]..[readU64]: the value, or nothing when the file ends too early. *)
Definition tryU (o : order) (n : nat) : hP (option Z) := fun f =>
  let '(d, f) := fread f (Z.of_nat n) in
  Ok (Some (if zlen d =? Z.of_nat n then Some (valueOf o d) else None, f)).
(** The same where the code ignores the result: at the end of the file the variable stays uninitialised and
    using it is undefined. *)
Definition readU (o : order) (n : nat) : hP Z := fun f =>
  let '(d, f) := fread f (Z.of_nat n) in
  if zlen d =? Z.of_nat n then Ok (Some (valueOf o d, f)) else UB.

(** The same where the code gives up ([return AF_FAIL]) when the file ends. *)
Definition needU (o : order) (n : nat) : hP Z :=
  let! v := tryU o n in match v with Some x => hret x | None => hfail end.

(** ** Facts *)
Section Facts.
Lemma skip_field b p (x rest : list Z) : 0 <= p -> zskipn p b = x ++ rest -> zskipn (p + zlen x) b = rest.
Proof.
  intros Hp H. rewrite <- zskipn_zskipn by (pose proof (zlen_nonneg x); lia). rewrite H. apply zskipn_exact.
Qed.

Lemma hread_field b p x rest n : 0 <= p -> zskipn p b = x ++ rest -> zlen x = n ->
  hread n (mkFile b p) = Ok (Some (x, mkFile b (p + n))).
Proof.
  intros Hp H <-. unfold hread, fread. cbn [fbytes fpos]. rewrite H, zfirstn_exact. reflexivity.
Qed.

Lemma valueOf_bytes o n x : valueOf o (sampleBytes o n x) = x mod 2 ^ (8 * Z.of_nat n).
Proof. unfold valueOf, sampleBytes. destruct o; [apply be_val_bytes|apply le_val_bytes]. Qed.

Lemma sampleBytes_zlen o n x : zlen (sampleBytes o n x) = Z.of_nat n.
Proof. unfold zlen, sampleBytes. destruct o; now rewrite ?be_bytes_length, ?le_bytes_length. Qed.

Lemma readU_field b p o n x rest : 0 <= p -> zskipn p b = sampleBytes o n x ++ rest ->
  readU o n (mkFile b p) = Ok (Some (x mod 2 ^ (8 * Z.of_nat n), mkFile b (p + Z.of_nat n))).
Proof.
  intros Hp H. unfold readU, fread. cbn [fbytes fpos]. rewrite H, <- (sampleBytes_zlen o n x), zfirstn_exact, Z.eqb_refl.
  rewrite valueOf_bytes, sampleBytes_zlen. reflexivity.
Qed.
Lemma tryU_field b p o n x rest : 0 <= p -> zskipn p b = sampleBytes o n x ++ rest ->
  tryU o n (mkFile b p) = Ok (Some (Some (x mod 2 ^ (8 * Z.of_nat n)), mkFile b (p + Z.of_nat n))).
Proof.
  intros Hp H. unfold tryU, fread. cbn [fbytes fpos]. rewrite H, <- (sampleBytes_zlen o n x), zfirstn_exact, Z.eqb_refl.
  rewrite valueOf_bytes, sampleBytes_zlen. reflexivity.
Qed.
Lemma skip_sample b p o n x rest : 0 <= p -> zskipn p b = sampleBytes o n x ++ rest -> zskipn (p + Z.of_nat n) b = rest.
Proof. intros Hp H. rewrite <- (sampleBytes_zlen o n x). now apply skip_field. Qed.
End Facts.

Lemma computeTotal_exact {R} bpp total (f : formatOf R) : f_bpp f = bpp -> f_fpp f = 1 -> 0 < bpp -> 0 <= total -> bpp * total < 2 ^ 62 -> computeTotal 0 (bpp * total) f = total.
Proof.
  intros E1 E2 Hb Ht Hs. unfold computeTotal. rewrite E1, E2. replace (bpp =? 0) with false by lia. cbn [orb]. change (1 =? 0) with false. cbv iota.
  change (2 ^ 62) with 4611686018427387904 in Hs. unfold u64, s64. rewrite (uN_small 64 (bpp * total)) by (change (2 ^ 64) with 18446744073709551616; nia).
  rewrite (Z.mul_comm bpp total), Z.div_mul, Z.mul_1_r by lia.
  rewrite uN_small by (change (2 ^ 64) with 18446744073709551616; nia). apply sN_small; [lia|]. change (2 ^ (64 - 1)) with 9223372036854775808. nia.
Qed.

Lemma bppPCM_ok w ch : 1 <= w <= 64 -> 0 < ch -> (w + 7) / 8 * ch < 2 ^ 31 -> bppPCM w ch = Ok ((w + 7) / 8 * ch).
Proof.
  intros Hw Hc Hs. change (2 ^ 31) with 2147483648 in *. unfold bppPCM, ck32, inS. rewrite Z.quot_div_nonneg by lia.
  assert (0 <= (w + 7) / 8 * ch) by (apply Z.mul_nonneg_nonneg; lia). set (v := (w + 7) / 8 * ch) in *. clearbody v.
  change (2 ^ (32 - 1)) with 2147483648. assert ((- (2147483648) <=? v) && (v <? 2147483648) = true) as -> by lia. cbn [rbind].
  unfold u64. rewrite uN_small by (change (2 ^ 64) with 18446744073709551616; lia). reflexivity.
Qed.

(** Reading step by step: the next field of the file is known. *)
Section Steps.
Context {A : Type}.
Lemma st_readU b p o n x rest (k : Z -> hP A) : 0 <= p -> zskipn p b = sampleBytes o n x ++ rest ->
  hbind (readU o n) k (mkFile b p) = k (x mod 2 ^ (8 * Z.of_nat n)) (mkFile b (p + Z.of_nat n)).
Proof. intros Hp H. unfold hbind. now rewrite (readU_field b p o n x rest Hp H). Qed.
Lemma st_tryU b p o n x rest (k : option Z -> hP A) : 0 <= p -> zskipn p b = sampleBytes o n x ++ rest ->
  hbind (tryU o n) k (mkFile b p) = k (Some (x mod 2 ^ (8 * Z.of_nat n))) (mkFile b (p + Z.of_nat n)).
Proof. intros Hp H. unfold hbind. now rewrite (tryU_field b p o n x rest Hp H). Qed.
Lemma st_needU b p o n x rest (k : Z -> hP A) : 0 <= p -> zskipn p b = sampleBytes o n x ++ rest ->
  hbind (needU o n) k (mkFile b p) = k (x mod 2 ^ (8 * Z.of_nat n)) (mkFile b (p + Z.of_nat n)).
Proof. intros Hp H. unfold hbind, needU, hbind. now rewrite (tryU_field b p o n x rest Hp H). Qed.
Lemma st_read b p x rest n (k : list Z -> hP A) : 0 <= p -> zskipn p b = x ++ rest -> zlen x = n ->
  hbind (hread n) k (mkFile b p) = k x (mkFile b (p + n)).
Proof. intros Hp H L. unfold hbind. now rewrite (hread_field b p x rest n Hp H L). Qed.
Lemma st_seek f n (k : unit -> hP A) : hbind (hseek n) k f = k tt (mkFile (fbytes f) n).
Proof. reflexivity. Qed.
Lemma st_skip f n (k : unit -> hP A) : hbind (hskip n) k f = k tt (mkFile (fbytes f) (fpos f + n)).
Proof. reflexivity. Qed.
Lemma st_tell f (k : Z -> hP A) : hbind htell k f = k (fpos f) f.
Proof. reflexivity. Qed.
Lemma st_length f (k : Z -> hP A) : hbind hlength k f = k (flength f) f.
Proof. reflexivity. Qed.
Lemma st_ret {C} (a : C) f (k : C -> hP A) : hbind (hret a) k f = k a f.
Proof. reflexivity. Qed.
Lemma st_assert {B : Build} (b : bool) f (k : unit -> hP A) : b = true -> hbind (hassert b) k f = k tt f.
Proof. intros ->. reflexivity. Qed.
Lemma st_lift {C} (r : res C) a f (k : C -> hP A) : r = Ok a -> hbind (hlift r) k f = k a f.
Proof. intros ->. reflexivity. Qed.
End Steps.

(** Reading at a given place of a file that is long enough, or too short. *)
Section At.
Context {A : Type}.
Lemma at_read b p n (k : list Z -> hP A) : 0 <= p -> 0 <= n -> p + n <= zlen b -> hbind (hread n) k (mkFile b p) = k (zfirstn n (zskipn p b)) (mkFile b (p + n)).
Proof. intros Hp Hn Hl. unfold hbind, hread, fread. cbn [fbytes fpos rbind]. rewrite zlen_firstn, zlen_skipn by lia. do 2 f_equal. lia. Qed.
Lemma at_zlen (b : list Z) p n : 0 <= p -> 0 <= n -> p + n <= zlen b -> zlen (zfirstn n (zskipn p b)) = n.
Proof. intros. rewrite zlen_firstn, zlen_skipn by lia. lia. Qed.
Lemma at_tryU b p o n (k : option Z -> hP A) : 0 <= p -> p + Z.of_nat n <= zlen b ->
  hbind (tryU o n) k (mkFile b p) = k (Some (valueOf o (zfirstn (Z.of_nat n) (zskipn p b)))) (mkFile b (p + Z.of_nat n)).
Proof. intros Hp Hl. unfold hbind, tryU, fread. cbn [fbytes fpos rbind]. rewrite at_zlen, Z.eqb_refl by lia. reflexivity. Qed.
Lemma at_readU b p o n (k : Z -> hP A) : 0 <= p -> p + Z.of_nat n <= zlen b ->
  hbind (readU o n) k (mkFile b p) = k (valueOf o (zfirstn (Z.of_nat n) (zskipn p b))) (mkFile b (p + Z.of_nat n)).
Proof. intros Hp Hl. unfold hbind, readU, fread. cbn [fbytes fpos rbind]. rewrite at_zlen, Z.eqb_refl by lia. reflexivity. Qed.
Lemma at_needU b p o n (k : Z -> hP A) : 0 <= p -> p + Z.of_nat n <= zlen b ->
  hbind (needU o n) k (mkFile b p) = k (valueOf o (zfirstn (Z.of_nat n) (zskipn p b))) (mkFile b (p + Z.of_nat n)).
Proof. intros Hp Hl. unfold hbind, needU, hbind, tryU, fread. cbn [fbytes fpos rbind]. rewrite at_zlen, Z.eqb_refl by lia. reflexivity. Qed.
Lemma short_needU b p o n (k : Z -> hP A) : 0 <= p -> zlen b < p + Z.of_nat n -> (0 < n)%nat -> hbind (needU o n) k (mkFile b p) = Ok None.
Proof.
  intros Hp Hl Hn. unfold hbind, needU, hbind, tryU, fread. cbn [fbytes fpos rbind]. rewrite zlen_firstn, zlen_skipn by lia.
  replace (Z.min (Z.of_nat n) (Z.max 0 (zlen b - p)) =? Z.of_nat n) with false by lia. reflexivity.
Qed.
End At.

Ltac hstep H :=
  match type of H with
  | zskipn ?p ?b = sampleBytes ?o ?n ?x ++ ?rest =>
      let H' := fresh "H" in
      assert (H' : zskipn (p + Z.of_nat n) b = rest) by (apply (skip_sample b p o n x rest); [lia|exact H]);
      first [rewrite (st_readU b p o n x rest _ ltac:(lia) H) | rewrite (st_tryU b p o n x rest _ ltac:(lia) H) | rewrite (st_needU b p o n x rest _ ltac:(lia) H)];
      cbv beta; clear H; rename H' into H
  | zskipn ?p ?b = ?x ++ ?rest =>
      let H' := fresh "H" in
      assert (H' : zskipn (p + zlen x) b = rest) by (apply (skip_field b p x rest); [lia|exact H]);
      rewrite (st_read b p x rest _ _ ltac:(lia) H eq_refl);
      cbv beta; clear H; rename H' into H
  end.
