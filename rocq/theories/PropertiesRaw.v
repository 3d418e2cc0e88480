(** * C72: raw files, described by the application *)
From Coq Require Import Lia Floats.SpecFloat.
From Verif Require Import Prelude PreludeFacts ByteOrder G711 FileIO Reader ReaderSpec PropertiesReader.
From Verif Require Import Writer WriterSpec WriterProofs WriterHistory Codecs CodecsProofs PropertiesWriter PropertiesRoundTrip HeaderIO FileRoundTrip.
From Verif Require Import Float FloatFacts FloatConv Raw.

(** ** The size of a frame *)
Lemma fdiv_pow2 m e k : bounded 24 128 m e = true -> digits2_pos m = 24%positive -> -60 <= e <= 60 -> 0 <= k <= 10 ->
  SFdiv 24 128 (S754_finite false m e) (S754_finite false 8388608 (k - 23)) = S754_finite false m (e - k).
Proof.
  intros Hb Hd He Hk. unfold SFdiv, SFdiv_core_binary. cbn [Zdigits2]. change (digits2_pos 8388608) with 24%positive. rewrite Hd. change (Zpos 24) with 24.
  assert (E : Z.min (fexp 24 128 (24 + e - (24 + (k - 23)))) (e - (k - 23)) = e - k - 1) by (unfold fexp, emin; lia). rewrite E.
  replace (e - (k - 23) - (e - k - 1)) with 24 by lia. cbv iota.
  assert (D : Z.div_eucl (Z.shiftl (Zpos m) 24) 8388608 = (Zpos (2 * m), 0)).
  { rewrite Z.shiftl_mul_pow2 by lia. change (2 ^ 24) with (2 * 8388608). replace (Z.pos m * (2 * 8388608)) with (Zpos (2 * m) * 8388608) by lia.
    pose proof (Z_div_mod (Z.pos (2 * m) * 8388608) 8388608 ltac:(lia)) as H. destruct (Z.div_eucl _ _) as [q r]. destruct H as [H1 H2]. assert (q = Zpos (2 * m)) by lia. subst q. f_equal. lia. }
  rewrite D. cbv iota beta. change (new_location 8388608 0) with loc_Exact. change (xorb false false) with false.
  apply (raux_exact 24 128) with (j := 1); [lia| |lia|lia].
  apply bounded_spec in Hb. apply bounded_spec. rewrite Hd in *. unfold fexp, emin in *. lia.
Qed.
Lemma fOfZ_parts n : 0 < n < 2 ^ 24 -> exists m e, fOfZ n = S754_finite false m e /\ bounded 24 128 m e = true /\ digits2_pos m = 24%positive /\ -60 <= e <= 60 /\ isF (fOfZ n) n 0.
Proof.
  intros Hn. pose proof (isF_ofZ n ltac:(lia)) as I. pose proof I as (Hv & Hf & Hz & K & HK & HG & HV).
  destruct (fOfZ n) as [s|s| |s m e] eqn:E; try contradiction.
  - cbn in HV. assert (0 < 2 ^ (0 - K)) by (apply Z.pow_pos_nonneg; lia). exfalso. nia.
  - cbn [V expGe] in *. assert (P1 : 0 < 2 ^ (0 - K)) by (apply Z.pow_pos_nonneg; lia). assert (P2 : 0 < 2 ^ (e - K)) by (apply Z.pow_pos_nonneg; lia).
    destruct s; [cbn [cond_Zopp] in HV; exfalso; nia|]. cbn [cond_Zopp] in HV. cbn [valid_binary] in Hv.
    destruct (bounded_exp 24 128 m e Hv) as (B1 & B2 & B3). pose proof (digits_bounds m) as D. unfold emin in B1, B2.
    assert (U : Zpos m < 2 ^ 24). { eapply Z.lt_le_trans; [apply D|]. apply Z.pow_le_mono_r; lia. }
    assert (R : -24 < e < 24).
    { destruct (Z.lt_ge_cases e 0) as [N|N].
      - assert (Em : Zpos m = n * 2 ^ (- e)).
        { replace (0 - K) with ((- e) + (e - K)) in HV by lia. rewrite Z.pow_add_r in HV by lia. nia. }
        assert (L : 2 ^ (- e) < 2 ^ 24) by nia. apply Z.pow_lt_mono_r_iff in L; lia.
      - assert (Em : Zpos m * 2 ^ e = n).
        { replace (e - K) with (e + (0 - K)) in HV by lia. rewrite Z.pow_add_r in HV by lia. nia. }
        assert (P3 : 0 < 2 ^ e) by (apply Z.pow_pos_nonneg; lia). assert (L : 2 ^ e < 2 ^ 24) by nia. apply Z.pow_lt_mono_r_iff in L; lia. }
    exists m, e. split; [reflexivity|]. split; [exact Hv|]. split; [lia|]. split; [lia|exact I].
Qed.
(** The size of a frame is exact below 2^24 bytes. *)
Lemma rawFrameSize_ok {R} (fm : formatOf R) n k : sampleSize fm * f_chan fm = n -> 0 < n < 2 ^ 24 -> 0 <= k <= 10 -> squishFactor (f_comp fm) = S754_finite false 8388608 (k - 23) -> rawFrameSize fm = Ok (n / 2 ^ k).
Proof.
  intros E Hn Hk Hs. unfold rawFrameSize. rewrite E. change (2 ^ 24) with 16777216 in Hn. unfold ck32. assert (I0 : inS 32 n = true) by (apply inS_spec; change (2 ^ (32 - 1)) with 2147483648; lia). rewrite I0. cbn [rbind].
  destruct (fOfZ_parts n) as (m & e & F1 & F2 & F3 & F4 & F5); [change (2 ^ 24) with 16777216; lia|]. rewrite Hs, F1, fdiv_pow2 by assumption.
  assert (I : isF (S754_finite false m (e - k)) n (- k)).
  { rewrite F1 in F5. destruct F5 as (A1 & A2 & A3 & K & A4 & A5 & A6). split; [|split; [exact A2|split; [discriminate|]]].
    - cbn [valid_binary]. apply bounded_spec. apply bounded_spec in F2. rewrite F3 in *. unfold fexp, emin in *. lia.
    - exists (K - k). cbn [expGe V] in *. split; [lia|]. split; [lia|]. replace (e - k - (K - k)) with (e - K) by lia. replace (- k - (K - k)) with (0 - K) by lia. exact A6. }
  unfold toInt. rewrite (truncZ_val 24 128 _ n k ltac:(lia) I). assert (P : 0 < 2 ^ k) by (apply Z.pow_pos_nonneg; lia). rewrite Z.quot_div_nonneg by lia.
  assert (Q : 0 <= n / 2 ^ k <= n) by (split; [apply Z.div_pos; lia|apply Z.div_le_upper_bound; nia]).
  assert (I1 : inS 32 (n / 2 ^ k) = true) by (apply inS_spec; change (2 ^ (32 - 1)) with 2147483648; lia). now rewrite I1.
Qed.

(** ** Specification *)
Fixpoint numbers (from : Z) (n : nat) : list Z := match n with O => [] | S k => from :: numbers (from + 1) k end.
(** The sample formats and their bytes per sample. *)
Definition rawPCM {R} (fm : formatOf R) (n : nat) : Prop :=
  f_comp fm = CNone /\ match f_sf fm with Float => n = 4%nat | Double => n = 8%nat | _ => 1 <= f_width fm <= 32 /\ Z.of_nat n = (f_width fm + 7) / 8 end.
Definition rawG711 {R} (fm : formatOf R) : Prop := (f_comp fm = CUlaw \/ f_comp fm = CAlaw) /\ f_sf fm = TwosComp /\ f_width fm = 16.
Definition rawSigned {R} (fm : formatOf R) : bool := match f_sf fm with TwosComp => true | _ => false end.
(** Sample [c] of frame [i]: the number in the [n] bytes at its place in the file. *)
Definition sampleAt (o : order) (sgn : bool) (n : nat) (ch : Z) (bytes : list Z) (first i c : Z) : Z :=
  sampleOf o sgn n (region bytes (first + Z.of_nat n * ch * i + Z.of_nat n * c) (Z.of_nat n)).

(** ** Proofs *)
Lemma pcm_size {R} (fm : formatOf R) n : rawPCM fm n -> 0 < f_chan fm -> Z.of_nat n * f_chan fm < 2 ^ 24 -> (1 <= n)%nat /\ rawFrameSize fm = Ok (Z.of_nat n * f_chan fm).
Proof.
  intros [Hc Hn] C L. assert (E : sampleSize fm = Z.of_nat n) by (unfold sampleSize; destruct (f_sf fm); try (subst n; reflexivity); destruct Hn as [H1 ->]; rewrite Z.quot_div_nonneg by lia; reflexivity).
  assert (N : (1 <= n)%nat) by (destruct (f_sf fm); try lia; destruct Hn as [H1 H2]; assert (1 <= (f_width fm + 7) / 8) by (apply Z.div_le_lower_bound; lia); lia).
  split; [exact N|]. rewrite (rawFrameSize_ok fm (Z.of_nat n * f_chan fm) 0); [change (2 ^ 0) with 1; now rewrite Z.div_1_r|now rewrite E|nia|lia|]. rewrite Hc. vm_compute. reflexivity.
Qed.
Lemma g711_size {R} (fm : formatOf R) : rawG711 fm -> 0 < f_chan fm < 2 ^ 23 -> rawFrameSize fm = Ok (f_chan fm).
Proof.
  intros (Hc & Hs & Hw) C. change (2 ^ 23) with 8388608 in C. rewrite (rawFrameSize_ok fm (2 * f_chan fm) 1).
  - change (2 ^ 1) with 2. now replace (2 * f_chan fm / 2) with (f_chan fm) by lia.
  - unfold sampleSize. rewrite Hs, Hw. reflexivity.
  - change (2 ^ 24) with 16777216. lia.
  - lia.
  - destruct Hc as [-> | ->]; vm_compute; reflexivity.
Qed.
Lemma rawRead_total {R} (fm : formatOf R) offset bytes bpf : rawFrameSize fm = Ok bpf -> 0 < bpf -> 0 <= rawFirst offset <= zlen bytes ->
  rawRead fm offset None (mkFile bytes 0) = Ok (Some (mkParsed fm (rawFirst offset) (zlen bytes - rawFirst offset) ((zlen bytes - rawFirst offset) / bpf), mkFile bytes 0)).
Proof.
  intros E P F. unfold rawRead. fold (rawFirst offset). rewrite st_length. unfold flength. cbn [fbytes]. replace (zlen bytes <? rawFirst offset) with false by lia.
  unfold hbind, hlift. rewrite E. cbn [rbind]. replace (bpf =? 0) with false by lia. unfold hret. rewrite Z.quot_div_nonneg by lia. reflexivity.
Qed.
Lemma chunks_numbers n k : 0 <= k -> forall l, chunksOf n k l = map (fun i => zfirstn k (zskipn (k * i) l)) (numbers 0 n).
Proof.
  intros Hk. assert (G : forall l from, 0 <= from -> chunksOf n k (zskipn (k * from) l) = map (fun i => zfirstn k (zskipn (k * i) l)) (numbers from n)).
  { induction n as [|n IH]; intros l from Hf; [reflexivity|]. cbn [chunksOf numbers map]. f_equal. rewrite zskipn_zskipn by nia. rewrite <- IH by lia. f_equal. f_equal. lia. }
  intros l. rewrite <- G by lia. rewrite Z.mul_0_r, zskipn_0 by lia. reflexivity.
Qed.
Lemma numbers_range n : forall from i, In i (numbers from n) -> from <= i < from + Z.of_nat n.
Proof. induction n as [|n IH]; intros from i H; [destruct H|]. destruct H as [<-|H]; [lia|]. apply IH in H. lia. Qed.

Lemma pcm_frames o sgn n ch bytes first total : (1 <= n)%nat -> 0 < ch -> 0 <= first -> 0 <= total ->
  map (fun b => map (sampleOf o sgn n) (chunksOf (Z.to_nat ch) (Z.of_nat n) b)) (chunksOf (Z.to_nat total) (Z.of_nat n * ch) (zskipn first bytes)) =
  map (fun i => map (sampleAt o sgn n ch bytes first i) (numbers 0 (Z.to_nat ch))) (numbers 0 (Z.to_nat total)).
Proof.
  intros N C F T. rewrite chunks_numbers by nia. rewrite map_map. apply map_ext_in. intros i Hi. apply numbers_range in Hi. rewrite chunks_numbers by lia. rewrite map_map.
  apply map_ext_in. intros c Hc. apply numbers_range in Hc. unfold sampleAt, region. f_equal. assert (0 <= Z.of_nat n * ch * i) by nia. assert (0 <= Z.of_nat n * c) by nia. assert (Z.of_nat n * c + Z.of_nat n <= Z.of_nat n * ch) by nia. rewrite zskipn_zskipn by lia. set (b := zskipn (first + Z.of_nat n * ch * i) bytes).
  replace (zskipn (first + Z.of_nat n * ch * i + Z.of_nat n * c) bytes) with (zskipn (Z.of_nat n * c) b) by (unfold b; rewrite zskipn_zskipn by lia; reflexivity).
  (* a piece of a prefix is the piece *)
  rewrite <- (zfirstn_skipn (Z.of_nat n * ch) b) at 2. destruct (Z.le_gt_cases (Z.of_nat n * ch) (zlen b)) as [L|L].
  - rewrite zskipn_app_l by (rewrite zlen_firstn; lia). rewrite zfirstn_app_l; [reflexivity|]. rewrite zlen_skipn, zlen_firstn by lia. lia.
  - rewrite (zfirstn_all (Z.of_nat n * ch) b) by lia. rewrite (zskipn_all (Z.of_nat n * ch) b) by lia. now rewrite app_nil_r.
Qed.

(** ** C72: any file *)

(** Any file can be opened as raw PCM data: it has as many frames as fit behind the data offset (or as the application says, if
    the file has them), and sample [c] of frame [i] is the number stored at its place.  An offset behind the end is refused. *)
Theorem C72_raw_pcm_any_file :
  forall (B : Build) R (fm : formatOf R) n offset bytes, rawPCM fm n -> 0 < f_chan fm -> 0 <= rawFirst offset ->
    let ch := f_chan fm in let bpf := Z.of_nat n * ch in let first := rawFirst offset in bpf < 2 ^ 24 ->
    (zlen bytes < first -> rawRead fm offset None (mkFile bytes 0) = Ok None) /\
    (first <= zlen bytes -> exists total, bpf * total <= zlen bytes - first < bpf * (total + 1) /\
      forall W (back : list Z -> W), reopens B (rawRead fm offset None) bytes (pcmR (f_order fm) (rawSigned fm) n ch) back fm first total
        (map (fun i => back (map (sampleAt (f_order fm) (rawSigned fm) n ch bytes first i) (numbers 0 (Z.to_nat ch)))) (numbers 0 (Z.to_nat total)))) /\
    (forall k, 0 <= k -> first + bpf * k <= zlen bytes ->
      forall W (back : list Z -> W), reopens B (rawRead fm offset (Some k)) bytes (pcmR (f_order fm) (rawSigned fm) n ch) back fm first k
        (map (fun i => back (map (sampleAt (f_order fm) (rawSigned fm) n ch bytes first i) (numbers 0 (Z.to_nat ch)))) (numbers 0 (Z.to_nat k)))).
Proof.
  intros B R fm n offset bytes P C F ch bpf first L. destruct (pcm_size fm n P C L) as [N E]. fold ch bpf in E. assert (P0 : 0 < bpf) by (unfold bpf, ch; nia).
  assert (G : forall k, 0 <= k -> first + bpf * k <= zlen bytes -> forall W (back : list Z -> W), readsAs B (pcmR (f_order fm) (rawSigned fm) n ch) back bytes first k
        (map (fun i => back (map (sampleAt (f_order fm) (rawSigned fm) n ch bytes first i) (numbers 0 (Z.to_nat ch)))) (numbers 0 (Z.to_nat k)))).
  { intros k K1 K2 W back. rewrite <- (map_map (fun i => map (sampleAt (f_order fm) (rawSigned fm) n ch bytes first i) (numbers 0 (Z.to_nat ch))) back). apply holds_readsAs.
    split; [exact F|]. split; [exact K1|]. cbn [pcmR]. split; [exact P0|]. split; [exact K2|]. symmetry. apply pcm_frames; auto. }
  split; [|split].
  - intros S. unfold rawRead. fold (rawFirst offset). rewrite st_length. unfold flength. cbn [fbytes]. fold first. now replace (zlen bytes <? first) with true by lia.
  - intros S. pose proof (Z.div_mod (zlen bytes - first) bpf ltac:(lia)) as D. pose proof (Z.mod_pos_bound (zlen bytes - first) bpf P0) as M. set (total := (zlen bytes - first) / bpf) in *. set (r := (zlen bytes - first) mod bpf) in *.
    assert (T0 : 0 <= total) by (apply Z.div_pos; lia). clearbody r. exists total. split; [lia|]. intros W back. eexists _, _. split; [apply rawRead_total; auto; fold first; lia|]. apply G; [exact T0|lia].
  - intros k K1 K2 W back. eexists _, _. split; [reflexivity|]. apply G; assumption.
Qed.
Print Assumptions C72_raw_pcm_any_file.

Theorem C72_raw_g711_any_file :
  forall (B : Build) R (fm : formatOf R) offset bytes, rawG711 fm -> 0 < f_chan fm < 2 ^ 23 -> 0 <= rawFirst offset <= zlen bytes ->
    let ch := f_chan fm in let first := rawFirst offset in
    let r := match f_comp fm with CUlaw => ulawR ch | _ => alawR ch end in
    let decode := match f_comp fm with CUlaw => ulaw2linear | _ => alaw2linear end in
    exists total, ch * total <= zlen bytes - first < ch * (total + 1) /\
      forall W (back : list Z -> W), reopens B (rawRead fm offset None) bytes r back fm first total
        (map (fun i => back (map (fun x => s16 (decode x)) (region bytes (first + ch * i) ch))) (numbers 0 (Z.to_nat total))).
Proof.
  intros B R fm offset bytes G C F ch first r decode. pose proof (g711_size fm G C) as E. fold ch in E. assert (P0 : 0 < ch) by (unfold ch; lia).
  pose proof (Z.div_mod (zlen bytes - first) ch ltac:(lia)) as D. pose proof (Z.mod_pos_bound (zlen bytes - first) ch P0) as M. set (total := (zlen bytes - first) / ch) in *. set (q := (zlen bytes - first) mod ch) in *.
  assert (T0 : 0 <= total) by (apply Z.div_pos; fold first in F; lia). clearbody q. exists total. split; [lia|]. intros W back. eexists _, _. split; [apply rawRead_total; auto; fold first; lia|].
  rewrite <- (map_map (fun i => map (fun x => s16 (decode x)) (region bytes (first + ch * i) ch)) back). apply holds_readsAs. unfold holds.
  assert (K : map (fun i => map (fun x => s16 (decode x)) (region bytes (first + ch * i) ch)) (numbers 0 (Z.to_nat total)) = map (map (fun x => s16 (decode x))) (chunksOf (Z.to_nat total) ch (zskipn first bytes))).
  { rewrite chunks_numbers, map_map by lia. apply map_ext_in. intros i Hi. apply numbers_range in Hi. unfold region. rewrite zskipn_zskipn; [reflexivity|fold first in F; lia|nia]. }
  rewrite K. split; [apply F|]. split; [exact T0|]. unfold r, decode. destruct G as ([-> | ->] & _); (split; [exact P0|]; split; [lia|]; reflexivity).
Qed.
Print Assumptions C72_raw_g711_any_file.

(** ** C72: files the library writes *)
Lemma raw_front offset limit bpf : 0 <= rawFirst offset <= limit ->
  frontOK (fun b => zlen b <= limit /\ Forall (fun x => x = 0) (zfirstn (rawFirst offset) b)) rawInit (rawFirst offset) limit bpf rawUpdate.
Proof.
  intros Hf. split.
  - intros b p d Hp Hl [Hb Hz]. destruct d as [|x d]; [split; assumption|]. set (a := x :: d) in *. assert (Na : a <> []) by discriminate. clearbody a. pose proof (zlen_nonneg a).
    split; [rewrite ow_len by (auto; lia); lia|]. unfold overwrite. destruct a as [|y a]; [congruence|]. set (z := y :: a) in *.
    pose proof (zlen_nonneg b). assert (Lz : zlen (zfirstn p (b ++ zrepeat 0 (p - zlen b))) = p).
    { rewrite zlen_firstn, zlen_app by lia. destruct (Z.le_gt_cases (zlen b) p); [rewrite zlen_repeat by lia; lia|]. pose proof (zlen_nonneg (zrepeat 0 (p - zlen b))). lia. }
    rewrite zfirstn_app_l by lia. rewrite zfirstn_zfirstn. rewrite Z.min_l by lia.
    assert (G : forall l : list Z, Forall (fun x => x = 0) (zfirstn (rawFirst offset) l) -> forall m, Forall (fun x => x = 0) (zfirstn (rawFirst offset) (l ++ zrepeat 0 m))).
    { intros l Hl0 m. unfold zfirstn in *. rewrite firstn_app. apply Forall_app. split; [exact Hl0|]. apply Forall_forall. intros v Hv. assert (In v (zrepeat 0 m)) as Hv2. { rewrite <- (firstn_skipn (Z.to_nat (rawFirst offset) - length l) (zrepeat 0 m)). apply in_or_app. now left. } unfold zrepeat in Hv2. apply repeat_spec in Hv2. exact Hv2. }
    apply G. exact Hz.
  - intros f t _ _ _ _ H. exact H.
  - unfold rawInit. split; [change (zlen (@nil Z)) with 0; lia|]. unfold zfirstn. rewrite firstn_nil. constructor.
Qed.
Lemma raw_keeps first : updKeeps rawUpdate first.
Proof. intros f t _. reflexivity. Qed.

(** Written and opened again with the same description, a raw file has the frames that were written.  The file contains nothing
    else: zeros up to the data offset and the audio. *)
Theorem C72_raw_pcm_roundtrip_partial :
  forall (B : Build) R (fm : formatOf R) n offset, rawPCM fm n -> 0 < f_chan fm -> 0 <= rawFirst offset ->
  forall (V W : Type) (conv : V -> list Z) (back : list Z -> W) junk cap (ops : list wop),
    let ch := f_chan fm in let o := f_order fm in let bpf := Z.of_nat n * ch in let first := rawFirst offset in let total := zlen (written ops) in
    bpf < 2 ^ 24 -> zlen junk = ch -> spaced false (ops ++ [Sync]) ->
    Forall (fun v => frameOf ch (fits (rawSigned fm) n) (conv v)) (written ops) ->
    first + bpf * total < 2 ^ 31 -> written ops <> [] \/ first = 0 ->
    exists st, wrun (pcmW o n ch) conv junk true rawUpdate (openWrite (pcmW o n ch) rawInit first cap tt) (ops ++ [Sync]) = Ok st /\
      zlen (fbytes (ws_file st)) = first + bpf * total /\ Forall (fun x => x = 0) (zfirstn first (fbytes (ws_file st))) /\
      reopens B (rawRead fm offset None) (fbytes (ws_file st)) (pcmR o (rawSigned fm) n ch) back fm first total (map (fun v => back (conv v)) (written ops)).
Proof.
  intros B R fm n offset P C F V W conv back junk cap ops ch o bpf first total L Hj Hsp Hok Hs Hne.
  destruct (pcm_size fm n P C L) as [N E]. fold ch bpf in E. assert (P0 : 0 < bpf) by (unfold bpf, ch; nia). pose proof (zlen_nonneg (written ops)) as T0. fold total in T0.
  destruct (pcm_file (W := W) B o (rawSigned fm) n ch N C conv back junk rawUpdate rawInit first cap ops Hj F (updKeeps_for _ _ _ _ (raw_keeps first)) _
      (raw_front offset (first + bpf * total) bpf ltac:(fold first; nia)) Hsp Hok Hs) as (st & f0 & R1 & Ef & (P1 & P2) & T & T1 & T2 & T3 & Fit & RD). fold total bpf in T1, T2, T3, Fit, RD.
  exists st. split; [exact R1|]. unfold rawUpdate in Ef. rewrite <- Ef in P1, P2.
  assert (Len : zlen (fbytes (ws_file st)) = first + bpf * total).
  { destruct (list_eq_dec Z.eq_dec (fbytes (ws_file st)) []) as [Em|Em].
    - destruct Hne as [Hne|Hne]; [specialize (Fit Hne); lia|]. rewrite Em in *. change (zlen (@nil Z)) with 0 in *. destruct (written ops) as [|v l] eqn:Ew; [unfold total; change (zlen (@nil V)) with 0; lia|]. assert (v :: l <> []) as X by discriminate. specialize (Fit X). lia.
    - destruct Hne as [Hne|Hne]; [specialize (Fit Hne); lia|]. destruct (written ops) as [|v l] eqn:Ew; [|assert (v :: l <> []) as X by discriminate; specialize (Fit X); lia].
      assert (total = 0) as Z0 by (unfold total; reflexivity). rewrite Z0 in *. pose proof (zlen_nonneg (fbytes (ws_file st))). lia. }
  split; [exact Len|]. split; [exact P2|]. eexists _, _. split.
  - rewrite (rawRead_total fm offset _ bpf E P0) by (fold first; rewrite Len; nia). fold first. rewrite Len. replace ((first + bpf * total - first) / bpf) with total; [reflexivity|]. replace (first + bpf * total - first) with (total * bpf) by lia. now rewrite Z.div_mul by lia.
  - apply RD. right. rewrite Len. nia.
Qed.
Print Assumptions C72_raw_pcm_roundtrip_partial.

Theorem C72_raw_g711_roundtrip_partial :
  forall (B : Build) R (fm : formatOf R) offset, rawG711 fm -> 0 < f_chan fm < 2 ^ 23 -> 0 <= rawFirst offset ->
  forall (V W : Type) (conv : V -> list Z) (back : list Z -> W) junk cap (ops : list wop),
    let ch := f_chan fm in let first := rawFirst offset in let total := zlen (written ops) in
    let w := match f_comp fm with CUlaw => ulawW ch | _ => alawW ch end in
    let r := match f_comp fm with CUlaw => ulawR ch | _ => alawR ch end in
    let quantise := match f_comp fm with CUlaw => fun x => ulaw2linear (linear2ulaw x) | _ => fun x => alaw2linear (linear2alaw x) end in
    zlen junk = ch -> spaced false (ops ++ [Sync]) -> Forall (fun v => zlen (conv v) = ch) (written ops) -> written ops <> [] ->
    exists st, wrun w conv junk true rawUpdate (openWrite w rawInit first cap tt) (ops ++ [Sync]) = Ok st /\
      zlen (fbytes (ws_file st)) = first + ch * total /\ Forall (fun x => x = 0) (zfirstn first (fbytes (ws_file st))) /\
      reopens B (rawRead fm offset None) (fbytes (ws_file st)) r back fm first total (map (fun v => back (map quantise (conv v))) (written ops)).
Proof.
  intros B R fm offset G C F V W conv back junk cap ops ch first total w r quantise Hj Hsp Hok Hne.
  pose proof (g711_size fm G C) as E. fold ch in E. assert (P0 : 0 < ch) by (unfold ch; lia). pose proof (zlen_nonneg (written ops)) as T0. fold total in T0.
  assert (X : exists st f0, wrun w conv junk true rawUpdate (openWrite w rawInit first cap tt) (ops ++ [Sync]) = Ok st /\ ws_file st = rawUpdate f0 (ws_track st) /\
      (zlen (fbytes f0) <= first + ch * total /\ Forall (fun x => x = 0) (zfirstn first (fbytes f0))) /\ first + ch * total <= zlen (fbytes (ws_file st)) /\
      readsAs B r back (fbytes (ws_file st)) first total (map (fun v => back (map quantise (conv v))) (written ops))).
  { pose proof (raw_front offset (first + ch * total) ch ltac:(fold first; nia)) as FR. pose proof (updKeeps_for _ _ (first + ch * total) ch (raw_keeps first)) as UK. unfold w, r, quantise. destruct G as ([-> | ->] & _).
    - destruct (ulaw_file (W := W) B ch P0 conv back junk rawUpdate rawInit first cap ops Hj F UK _ FR Hsp Hok) as (st & f0 & R1 & Ef & P1 & T & T1 & T2 & T3 & Fit & RD). exists st, f0. auto 10.
    - destruct (alaw_file (W := W) B ch P0 conv back junk rawUpdate rawInit first cap ops Hj F UK _ FR Hsp Hok) as (st & f0 & R1 & Ef & P1 & T & T1 & T2 & T3 & Fit & RD). exists st, f0. auto 10. }
  destruct X as (st & f0 & R1 & Ef & (P1 & P2) & Fit & RD). unfold rawUpdate in Ef. rewrite <- Ef in P1, P2. assert (Len : zlen (fbytes (ws_file st)) = first + ch * total) by lia.
  exists st. split; [exact R1|]. split; [exact Len|]. split; [exact P2|]. eexists _, _. split; [|exact RD].
  rewrite (rawRead_total fm offset _ ch E P0) by (fold first; rewrite Len; nia). fold first. rewrite Len. replace ((first + ch * total - first) / ch) with total; [reflexivity|]. replace (first + ch * total - first) with (total * ch) by lia. now rewrite Z.div_mul by lia.
Qed.
Print Assumptions C72_raw_g711_roundtrip_partial.

(** ** What does not hold *)

(** A description with IMA or Microsoft ADPCM of one 16-bit channel: the frame size is half a byte, and opening any file divides
    by zero. *)
Theorem C72_raw_adpcm_refuted :
  forall R (fm : formatOf R) bytes, f_comp fm = CIMA \/ f_comp fm = CMSADPCM -> f_sf fm = TwosComp -> f_width fm = 16 -> f_chan fm = 1 ->
    rawRead fm None None (mkFile bytes 0) = UB.
Proof.
  intros R fm bytes Hc Hs Hw C. unfold rawRead. rewrite st_length. unfold flength. cbn [fbytes]. pose proof (zlen_nonneg bytes). replace (zlen bytes <? 0) with false by lia.
  assert (E : rawFrameSize fm = Ok 0). { unfold rawFrameSize, sampleSize. rewrite Hs, Hw, C. destruct Hc as [-> | ->]; vm_compute; reflexivity. }
  unfold hbind, hlift. rewrite E. reflexivity.
Qed.
Print Assumptions C72_raw_adpcm_refuted.

(** A file with a data offset to which no frame was written is empty, and cannot be opened again with that offset. *)
Theorem C72_raw_empty_with_offset_refuted :
  forall (B : Build) R (fm : formatOf R), 
    exists st, wrun (pcmW BigEndian 2 2) (fun x : list Z => x) [] true rawUpdate (openWrite (pcmW BigEndian 2 2) rawInit (rawFirst (Some 4)) 0 tt) [Sync] = Ok st /\
      fbytes (ws_file st) = [] /\ rawRead fm (Some 4) None (mkFile (fbytes (ws_file st)) 0) = Ok None.
Proof.
  intros B R fm.
  assert (E : rmap (fun st => fbytes (ws_file st)) (wrun (pcmW BigEndian 2 2) (fun x : list Z => x) [] true rawUpdate (openWrite (pcmW BigEndian 2 2) rawInit (rawFirst (Some 4)) 0 tt) [Sync]) = Ok []) by (destruct B; vm_compute; reflexivity).
  destruct (wrun _ _ _ _ _ _ _) as [st| | |]; try discriminate. exists st. split; [reflexivity|]. assert (Em : fbytes (ws_file st) = []) by (unfold rmap, rbind in E; congruence). split; [exact Em|]. rewrite Em. unfold rawRead. rewrite st_length. reflexivity.
Qed.
Print Assumptions C72_raw_empty_with_offset_refuted.

(** The frame count of the description is not compared with the file: an empty file "has" a million frames. *)
Theorem C72_raw_count_refuted :
  forall R (fm : formatOf R), rawRead fm None (Some 1000000) (mkFile [] 0) = Ok (Some (mkParsed fm 0 0 1000000, mkFile [] 0)).
Proof. reflexivity. Qed.
Print Assumptions C72_raw_count_refuted.

(** The frame size is computed as a float: 8-bit frames of 2^24 + 1 channels are taken to be one byte shorter, so that a file of
    2^24 frames is opened with 2^24 + 1. *)
Theorem C72_raw_frame_size_refuted :
  forall bytes, zlen bytes = 16777217 * 16777216 -> let fm := mkFmt 8000 Unsigned 8 16777217 BigEndian CNone 0 0 in
    rawRead fm None None (mkFile bytes 0) = Ok (Some (mkParsed fm 0 (16777217 * 16777216) 16777217, mkFile bytes 0)).
Proof.
  intros bytes L fm. unfold rawRead. rewrite st_length. unfold flength. cbn [fbytes]. rewrite L. change (16777217 * 16777216 <? 0) with false. cbv iota.
  assert (E : rawFrameSize fm = Ok 16777216) by (vm_compute; reflexivity). unfold hbind, hlift. rewrite E. cbn [rbind]. reflexivity.
Qed.
Print Assumptions C72_raw_frame_size_refuted.

(** ** Concrete cases *)
Definition exRaw : format := mkFmt 8000 TwosComp 16 2 BigEndian CNone 0 0.
Example C72_example_any :
  rawPCM exRaw 2 /\ rawFrameSize exRaw = Ok 4 /\
  rawRead exRaw (Some 1) None (mkFile [9; 0; 1; 255; 254; 0; 3; 0; 4; 7] 0) = Ok (Some (mkParsed exRaw 1 9 2, mkFile [9; 0; 1; 255; 254; 0; 3; 0; 4; 7] 0)) /\
  map (fun i => map (sampleAt BigEndian true 2 2 [9; 0; 1; 255; 254; 0; 3; 0; 4; 7] 1 i) (numbers 0 2)) (numbers 0 2) = [[1; -2]; [3; 4]].
Proof. split; [split; [reflexivity|cbn; lia]|]. split; [vm_compute; reflexivity|]. split; vm_compute; reflexivity. Qed.
Example C72_example_roundtrip (B : Build) :
  rmap (fun st => fbytes (ws_file st)) (wrun (pcmW BigEndian 2 2) (fun x => x) [0; 0] true rawUpdate (openWrite (pcmW BigEndian 2 2) rawInit 3 0 tt) ([Write [[1; -2]]; Sync; Write [[3; 4]]] ++ [Sync]))
    = Ok [0; 0; 0; 0; 1; 255; 254; 0; 3; 0; 4] /\
  Forall (fun v => frameOf 2 (fits true 2) v) (written [Write [[1; -2]]; Sync; Write [[3; 4]]]) /\ spaced false ([Write [[1; -2]]; Sync; Write [[3; 4]]] ++ [Sync]).
Proof.
  split; [vm_compute; reflexivity|]. split; [|cbn; auto]. unfold written, frameOf, fits. cbn. repeat constructor; cbn; lia.
Qed.
Example C72_example_g711 : rawG711 (mkFmt 8000 TwosComp 16 1 LittleEndian CUlaw 0 0) /\
  rawRead (mkFmt 8000 TwosComp 16 1 LittleEndian CUlaw 0 0) None None (mkFile [255; 0; 128] 0) = Ok (Some (mkParsed (mkFmt 8000 TwosComp 16 1 LittleEndian CUlaw 0 0) 0 3 3, mkFile [255; 0; 128] 0)).
Proof. split; [repeat split; auto|]. vm_compute. reflexivity. Qed.
