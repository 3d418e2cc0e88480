(** * C50: files are identified as what they were written as *)
From Verif Require Import Prelude PreludeFacts ByteOrder FileIO Rebuffer Reader ReaderSpec ReaderProofs Writer WriterSpec WriterProofs WriterHistory Codecs CodecsProofs RoundTripProofs PropertiesWriter PropertiesRoundTrip.
From Verif Require Import HeaderIO FileRoundTrip Chunks Identify.
From Verif Require RebufferProofs NeXT AVR AIFF IFF IRCAM VOC SampleVision CAF NIST WAVE.

(** ** What distinguishes the formats, in the words of their specifications *)
Definition ascii4 (a b c d : Z) : list Z := [a; b; c; d].
Inductive marked : Z -> list Z -> Prop :=
| Mk_aifc s r : zlen s = 4 -> marked 1 (ascii4 70 79 82 77 ++ s ++ ascii4 65 73 70 67 ++ r)      (* FORM .... AIFC *)
| Mk_aiff s r : zlen s = 4 -> marked 2 (ascii4 70 79 82 77 ++ s ++ ascii4 65 73 70 70 ++ r)      (* FORM .... AIFF *)
| Mk_next r : marked 3 (ascii4 46 115 110 100 ++ r)                                              (* .snd *)
| Mk_wave s r : zlen s = 4 -> marked 4 (ascii4 82 73 70 70 ++ s ++ ascii4 87 65 86 69 ++ r)      (* RIFF .... WAVE *)
| Mk_ircam m r : In m [[0x64;0xa3;1;0]; [0;1;0xa3;0x64]; [0x64;0xa3;2;0]; [0;2;0xa3;0x64]; [0x64;0xa3;3;0]; [0;3;0xa3;0x64]; [0x64;0xa3;4;0]; [0;4;0xa3;0x64]] ->
    marked 5 (m ++ r)
| Mk_avr r : marked 9 (ascii4 50 66 73 84 ++ r)                                                  (* 2BIT *)
| Mk_iff s r : zlen s = 4 -> marked 10 (ascii4 70 79 82 77 ++ s ++ ascii4 56 83 86 88 ++ r)      (* FORM .... 8SVX *)
| Mk_smp r : marked 11 (SampleVision.smpMagic ++ r)                                              (* SOUND SAMPLE DATA *)
| Mk_voc r : marked 12 (VOC.vocMagic ++ r)                                                       (* Creative Voice File *)
| Mk_nist r : marked 13 (NIST.nistMagic ++ r)                                                    (* NIST_1A, 1024 *)
| Mk_caf r : marked 15 (ascii4 99 97 102 102 ++ [0; 1; 0; 0] ++ r)                               (* caff, version 1 *)
| Mk_flac r : marked 16 (ascii4 102 76 97 67 ++ r).                                              (* fLaC *)

Lemma teq_iff a b : teq a b = true <-> a = b.
Proof. unfold teq. destruct (list_eq_dec Z.eq_dec a b); split; congruence. Qed.
Lemma starts (b m : list Z) : zfirstn (zlen m) b = m <-> exists rest, b = m ++ rest.
Proof.
  split.
  - intros H. exists (zskipn (zlen m) b). rewrite <- H at 1. symmetry. apply zfirstn_skipn.
  - intros (rest & ->). apply zfirstn_exact.
Qed.
Lemma fread_start b p n : fread (fseek (mkFile b p) 0) n = (zfirstn n b, mkFile b (0 + zlen (zfirstn n b))).
Proof. unfold fread, fseek. cbn [fbytes fpos]. rewrite zskipn_0 by lia. reflexivity. Qed.
Lemma rec_prefix (rec : file -> bool) m b p :
  (rec (mkFile b p) = (let d := zfirstn (zlen m) b in (zlen d =? zlen m) && teq d m)) -> rec (mkFile b p) = true <-> exists rest, b = m ++ rest.
Proof.
  intros ->. rewrite <- starts. cbv zeta. rewrite andb_true_iff, teq_iff. split; [tauto|]. intros H. split; [|exact H]. rewrite H. lia.
Qed.
Lemma rec_prefix' (rec : file -> bool) m b p :
  (rec (mkFile b p) = (if list_eq_dec Z.eq_dec (zfirstn (zlen m) b) m then true else false)) -> rec (mkFile b p) = true <-> exists rest, b = m ++ rest.
Proof. intros ->. rewrite <- starts. destruct (list_eq_dec Z.eq_dec _ m); split; congruence. Qed.
(** The formats with a tag, a size and a type. *)
Lemma rec_form (rec : file -> bool) tag ty b p : zlen tag = 4 -> zlen ty = 4 ->
  (rec (mkFile b p) = (let d := zfirstn 8 b in if negb (zlen d =? 8) || negb (teq (zfirstn 4 d) tag) then false else teq (zfirstn 4 (zskipn (0 + zlen d) b)) ty)) ->
  rec (mkFile b p) = true <-> exists s rest, zlen s = 4 /\ b = tag ++ s ++ ty ++ rest.
Proof.
  intros Lt Ly ->. cbv zeta. split.
  - destruct (zlen (zfirstn 8 b) =? 8) eqn:E8; [|discriminate]. destruct (teq (zfirstn 4 (zfirstn 8 b)) tag) eqn:Et; [|discriminate]. cbn [negb orb].
    rewrite teq_iff. apply teq_iff in Et. rewrite zfirstn_zfirstn in Et. change (Z.min 4 8) with 4 in Et. replace (0 + zlen (zfirstn 8 b)) with 8 by lia. intros Hy.
    assert (L8 : 8 <= zlen b) by (rewrite zlen_firstn in E8; pose proof (zlen_nonneg b); lia).
    exists (zfirstn 4 (zskipn 4 b)), (zskipn 4 (zskipn 8 b)). split; [rewrite zlen_firstn, zlen_skipn by lia; lia|].
    rewrite <- Et, <- Hy, zfirstn_skipn. replace (zskipn 8 b) with (zskipn 4 (zskipn 4 b)) by (rewrite zskipn_zskipn by lia; reflexivity).
    now rewrite !zfirstn_skipn.
  - intros (s & rest & Ls & ->). assert (E : zfirstn 8 (tag ++ s ++ ty ++ rest) = tag ++ s).
    { rewrite app_assoc. replace 8 with (zlen (tag ++ s)) by (rewrite zlen_app; lia). apply zfirstn_exact. }
    rewrite E. rewrite zlen_app, Lt, Ls. change (4 + 4 =? 8) with true. rewrite <- Lt at 1. rewrite zfirstn_exact.
    rewrite (proj2 (teq_iff tag tag) eq_refl). cbn [negb orb]. rewrite teq_iff.
    rewrite app_assoc. replace (0 + (4 + 4)) with (zlen (tag ++ s)) by (rewrite zlen_app; lia). rewrite zskipn_exact. rewrite <- Ly at 1. apply zfirstn_exact.
Qed.

Ltac form rec t y name :=
  rewrite (rec_form rec t y); [|reflexivity|reflexivity|
    unfold name; rewrite fread_start; cbv zeta; destruct (negb _ || negb _); [reflexivity|]; unfold fread; cbn [fbytes fpos];
    try reflexivity; match goal with |- (zlen ?d =? 4) && teq ?d ?m = _ => change m with y; destruct (teq d y) eqn:ET; [apply teq_iff in ET; rewrite ET; reflexivity|apply andb_false_r] end];
  (split; [intros (s & r & L & ->); constructor; exact L|inversion 1; subst; eauto]).
Ltac pre rec m name :=
  rewrite (rec_prefix rec m); [split; [intros (r & ->); constructor|inversion 1; subst; eauto]|unfold name; rewrite fread_start; reflexivity].
Ltac pre' rec m name :=
  rewrite (rec_prefix' rec m); [split; [intros (r & ->); constructor|inversion 1; subst; eauto]|unfold name; rewrite fread_start; reflexivity].
(** Every recognizer accepts the files of its format, and no others. *)
Lemma recognizes i g b p : nth_error recognizers (Z.to_nat i) = Some (Some g) -> 0 <= i -> g (mkFile b p) = true <-> marked i b.
Proof.
  intros Hn Hi. assert (Hs : (Z.to_nat i < 17)%nat) by (change 17%nat with (length recognizers); apply nth_error_Some; rewrite Hn; discriminate).
  assert (Ei : i = Z.of_nat (Z.to_nat i)) by lia. revert Hn Hs Ei. generalize (Z.to_nat i). intros k Hn Hs ->. clear Hi.
  destruct k as [|[|[|[|[|[|[|[|[|[|[|[|[|[|[|[|[|k]]]]]]]]]]]]]]]]]; [..|lia]; cbn [nth_error recognizers] in Hn; try discriminate; injection Hn as <-; cbn [Z.of_nat Pos.of_succ_nat Pos.succ].
  - split; [discriminate|inversion 1].
  - form (AIFF.aiffRecognize true) (ascii4 70 79 82 77) (ascii4 65 73 70 67) AIFF.aiffRecognize.
  - form (AIFF.aiffRecognize false) (ascii4 70 79 82 77) (ascii4 65 73 70 70) AIFF.aiffRecognize.
  - pre' NeXT.nextRecognize (ascii4 46 115 110 100) NeXT.nextRecognize.
  - form WAVE.waveRecognize (ascii4 82 73 70 70) (ascii4 87 65 86 69) WAVE.waveRecognize.
  - unfold IRCAM.ircamRecognize. rewrite fread_start. rewrite andb_true_iff. unfold IRCAM.isMagic. rewrite existsb_exists. split.
    + intros [L (m & Hm & E)]. destruct (list_eq_dec Z.eq_dec (zfirstn 4 b) m) as [Em|]; [|discriminate].
      rewrite <- (zfirstn_skipn 4 b). constructor. rewrite Em. exact Hm.
    + inversion 1 as [| | | |m r Hm E1 E2| | | | | | |]. subst b. assert (L : zlen m = 4) by (cbn [In] in Hm; intuition; subst m; reflexivity).
      assert (E4 : zfirstn 4 (m ++ r) = m) by (rewrite <- L; apply zfirstn_exact). rewrite E4. split; [lia|]. exists m. split; [exact Hm|]. destruct (list_eq_dec Z.eq_dec m m); congruence.
  - pre' AVR.avrRecognize (ascii4 50 66 73 84) AVR.avrRecognize.
  - form IFF.iffRecognize (ascii4 70 79 82 77) (ascii4 56 83 86 88) IFF.iffRecognize.
  - pre SampleVision.smpRecognize SampleVision.smpMagic SampleVision.smpRecognize.
  - pre VOC.vocRecognize VOC.vocMagic VOC.vocRecognize.
  - pre NIST.nistRecognize NIST.nistMagic NIST.nistRecognize.
  - rewrite (rec_prefix CAF.cafRecognize (ascii4 99 97 102 102 ++ [0;1;0;0])).
    + split; [intros (r & ->); rewrite <- app_assoc; constructor|inversion 1; subst; eexists; rewrite <- app_assoc; reflexivity].
    + unfold CAF.cafRecognize. rewrite fread_start. change (zlen (ascii4 99 97 102 102 ++ [0;1;0;0])) with 8. cbv zeta. set (d := zfirstn 8 b).
      rewrite <- andb_assoc. f_equal. apply Bool.eq_iff_eq_true. rewrite andb_true_iff, !teq_iff. split.
      * intros [H1 H2]. rewrite <- (zfirstn_skipn 4 d), H1, H2. reflexivity.
      * intros ->. split; reflexivity.
  - pre flacRecognize (ascii4 102 76 97 67) flacRecognize.
Qed.

(** No file carries the marks of two formats. *)
Lemma marked_unique i j b : marked i b -> marked j b -> i = j.
Proof.
  assert (F : forall i b, marked i b -> exists a r, b = a ++ r /\ zlen a = 4 /\
    (i = 1 /\ a = ascii4 70 79 82 77 /\ (exists s r', r = s ++ ascii4 65 73 70 67 ++ r' /\ zlen s = 4) \/
     i = 2 /\ a = ascii4 70 79 82 77 /\ (exists s r', r = s ++ ascii4 65 73 70 70 ++ r' /\ zlen s = 4) \/
     i = 10 /\ a = ascii4 70 79 82 77 /\ (exists s r', r = s ++ ascii4 56 83 86 88 ++ r' /\ zlen s = 4) \/
     i = 4 /\ a = ascii4 82 73 70 70 \/ i = 3 /\ a = ascii4 46 115 110 100 \/
     i = 5 /\ In a IRCAM.ircamMagics \/ i = 9 /\ a = ascii4 50 66 73 84 \/ i = 11 /\ a = ascii4 83 79 85 78 \/ i = 12 /\ a = ascii4 67 114 101 97 \/
     i = 13 /\ a = ascii4 78 73 83 84 \/ i = 15 /\ a = ascii4 99 97 102 102 \/ i = 16 /\ a = ascii4 102 76 97 67)).
  { intros ? ? M. destruct M as [s r L|s r L|r|s r L|m r Hm|r|s r L|r|r|r|r|r].
    5:{ exists m, r. split; [reflexivity|]. split; [cbn [In] in Hm; intuition; subst m; reflexivity|]. do 5 right. left. auto. }
    all: eexists (_ :: _ :: _ :: _ :: nil), _; split; [reflexivity|]; split; [reflexivity|]; unfold ascii4; eauto 20. }
  intros Mi Mj. destruct (F _ _ Mi) as (a & r & Ea & La & Hi), (F _ _ Mj) as (a' & r' & Ea' & La' & Hj). clear F Mi Mj.
  assert (E : a = a' /\ r = r').
  { subst b. split; [apply (f_equal (zfirstn 4)) in Ea'|apply (f_equal (zskipn 4)) in Ea']; rewrite <- La in Ea' at 1; rewrite <- La' in Ea' at 1.
    - now rewrite !zfirstn_exact in Ea'.
    - now rewrite !zskipn_exact in Ea'. }
  destruct E as [<- <-]. clear Ea Ea' La'.
  assert (T : forall x y s1 t1 s2 t2 : list Z, zlen x = 4 -> zlen y = 4 -> s1 ++ x ++ t1 = s2 ++ y ++ t2 -> zlen s1 = 4 -> zlen s2 = 4 -> x = y).
  { intros x y s1 t1 s2 t2 Lx Ly E2 L1 L2. apply (f_equal (zskipn 4)) in E2. rewrite <- L1 in E2 at 1. rewrite <- L2 in E2 at 1. rewrite !zskipn_exact in E2.
    apply (f_equal (zfirstn 4)) in E2. rewrite <- Lx in E2 at 1. rewrite <- Ly in E2 at 1. now rewrite !zfirstn_exact in E2. }
  repeat match goal with H : _ \/ _ |- _ => destruct H | H : _ /\ _ |- _ => destruct H | H : exists _, _ |- _ => destruct H end; subst; try reflexivity; try discriminate;
    try (exfalso; match goal with H1 : ?s ++ ?x ++ ?t = ?s' ++ ?y ++ ?t' |- _ => assert (x = y) by (apply (T x y s t s' t'); auto); discriminate end).
  all: match goal with H : In _ _ |- _ => exfalso; cbn [In IRCAM.ircamMagics] in H; repeat destruct H as [H|H]; try discriminate; contradiction end.
Qed.

Lemma identifyFrom_marked l : forall i b p, 0 <= i -> (forall k g, nth_error l k = Some (Some g) -> g (mkFile b p) = true <-> marked (i + Z.of_nat k) b) ->
  (forall k, (forall g, nth_error l k <> Some (Some g)) -> ~ marked (i + Z.of_nat k) b) ->
  let r := identifyFrom i l (mkFile b p) in (r = -1 /\ forall k, (k < length l)%nat -> ~ marked (i + Z.of_nat k) b) \/ (i <= r < i + zlen l /\ marked r b).
Proof.
  induction l as [|g l IH]; intros i b p Hi HG HN; cbn [identifyFrom]; cbv zeta.
  - left. split; [reflexivity|]. intros k Hk. cbn in Hk. lia.
  - rewrite zlen_cons. pose proof (zlen_nonneg l).
    assert (IH' := IH (i + 1) b p ltac:(lia)).
    assert (A1 : forall k g', nth_error l k = Some (Some g') -> g' (mkFile b p) = true <-> marked (i + 1 + Z.of_nat k) b).
    { intros k g' Hk. replace (i + 1 + Z.of_nat k) with (i + Z.of_nat (S k)) by lia. apply HG. exact Hk. }
    assert (A2 : forall k, (forall g', nth_error l k <> Some (Some g')) -> ~ marked (i + 1 + Z.of_nat k) b).
    { intros k Hk. replace (i + 1 + Z.of_nat k) with (i + Z.of_nat (S k)) by lia. apply HN. exact Hk. }
    specialize (IH' A1 A2). cbv zeta in IH'.
    assert (A0 : (if match g with Some g0 => g0 (mkFile b p) | None => false end then True else False) <-> marked i b).
    { destruct g as [g|].
      - specialize (HG 0%nat g eq_refl). replace (i + Z.of_nat 0) with i in HG by lia. rewrite <- HG. destruct (g (mkFile b p)); intuition discriminate.
      - specialize (HN 0%nat). replace (i + Z.of_nat 0) with i in HN by lia. assert (~ marked i b) by (apply HN; intros ? ?; discriminate). tauto. }
    destruct (match g with Some g0 => g0 (mkFile b p) | None => false end).
    + right. split; [lia|]. apply A0. exact I.
    + destruct IH' as [[E N]|[R M]]; [left|right; split; [lia|exact M]]. split; [exact E|]. intros k Hk. destruct k as [|k].
      * replace (i + Z.of_nat 0) with i by lia. intros M. apply A0 in M. exact M.
      * replace (i + Z.of_nat (S k)) with (i + 1 + Z.of_nat k) by lia. apply N. cbn in Hk. lia.
Qed.
Lemma marked_range i b : marked i b -> 1 <= i <= 16. Proof. intros []; lia. Qed.

(** A file is identified as format [i] exactly if it carries that format's marks, wherever the file is positioned; the order in
    which the formats are tried plays no role. *)
Theorem C50_identification_exact : forall b p i, afIdentify true (mkFile b p) = i /\ i <> -1 <-> marked i b.
Proof.
  intros b p i. unfold afIdentify.
  destruct (identifyFrom_marked recognizers 0 b p) as [[E N]|[R M]]; [lia| | | |].
  - intros k g Hk. rewrite Z.add_0_l. apply recognizes; [|lia]. rewrite Nat2Z.id. exact Hk.
  - intros k Hk M. rewrite Z.add_0_l in M. assert (Hr := marked_range _ _ M). assert (K : (k < 17)%nat) by lia.
    destruct k as [|[|[|[|[|[|[|[|[|[|[|[|[|[|[|[|[|k]]]]]]]]]]]]]]]]]; try lia; try (eapply Hk; reflexivity); inversion M.
  - rewrite E. split; [intros [<- H]; congruence|]. intros M. exfalso. assert (Hr := marked_range _ _ M).
    apply (N (Z.to_nat i)); [change (length recognizers) with 17%nat; lia|]. rewrite Z.add_0_l, Z2Nat.id by lia. exact M.
  - split; [intros [<- _]; exact M|]. intros M'. rewrite (marked_unique _ _ _ M' M). split; [reflexivity|lia].
Qed.
Print Assumptions C50_identification_exact.

(** ** What writing keeps of the beginning of a file *)
Section Keep.
Context {B : Build} {F V E : Type}.
Variable c : wcodec F E.
Variable conv : V -> F.
Variable junk : F.
Variable upd : file -> wtrack -> file.
Variable okF : F -> Prop.
Variable okE : E -> Prop.
Hypothesis Hlaw : lawful c okF okE.
Variable P : list Z -> Prop.
Variable first : Z.
Hypothesis HPow : forall b p d, first <= p -> P b -> P (overwrite b p d).
Hypothesis HPupd : forall f t, w_first t = first -> 0 <= w_dsize t -> first <= w_after t -> P (fbytes f) -> P (fbytes (upd f t)).

(** [n]: how many frames were written so far. *)
Definition kept (f : file) (t : wtrack) (n : Z) : Prop :=
  P (fbytes f) /\ w_first t = first /\ 0 <= w_dsize t /\ first <= w_nextpos t /\ first <= fpos f /\
  match c with WPerFrame true bpf _ => w_nextpos t <= first + bpf * n | _ => True end.

Lemma blockPush_kept fpp bpp encB s buf n s' k : c = WBlocks fpp bpp encB ->
  kept (fst (fst s)) (snd (fst s)) k -> blockPush junk fpp bpp encB s buf n = Ok s' -> kept (fst (fst s')) (snd (fst s')) k.
Proof.
  intros Ec. destruct s as [[f t] e]. cbn [fst snd]. unfold kept. rewrite Ec. intros (H1 & H2 & H3 & H4 & H5 & _). unfold blockPush.
  destruct ((fpp <=? 0) || (bpp <=? 0)); [discriminate|]. intros H. apply rbind_Ok in H. destruct H as ([d e'] & _ & H). unfold fmWrite in H.
  apply rbind_Ok in H. destruct H as (u & _ & H). injection H as <-. cbn [fst snd fwrite fbytes fpos advance w_first w_dsize w_nextpos]. pose proof (zlen_nonneg d).
  split; [apply HPow; auto|]. repeat split; lia.
Qed.
Lemma pushLoop_kept {S A} (push : S -> list (option A) -> Z -> res S) N (I : S -> Prop) : (forall s buf n s', I s -> push s buf n = Ok s' -> I s') ->
  forall fuel outb off inb s o' off' i' s', I s -> pushLoop push N fuel outb off inb s = Ok (o', off', i', s') -> I s'.
Proof.
  intros HI. induction fuel as [|fuel IH]; intros outb off inb s o' off' i' s' Hs; cbn [pushLoop]; destruct (negb _); try discriminate; try (intros [= _ _ _ <-]; exact Hs).
  intros H. apply rbind_Ok in H. destruct H as (seg & _ & H). apply rbind_Ok in H. destruct H as (ob & _ & H). apply rbind_Ok in H. destruct H as (s1 & H1 & H).
  eapply IH; [|exact H]. eapply HI; eauto.
Qed.
Lemma rebPush_kept {S A} (push : S -> list (option A) -> Z -> res S) N (I : S -> Prop) : (forall s buf n s', I s -> push s buf n = Ok s' -> I s') ->
  forall m fuel r outb s inb r' o' s', I s -> rebPush push N m fuel r outb s inb = Ok (r', o', s') -> I s'.
Proof.
  intros HI m fuel r outb s inb r' o' s' Hs H. unfold rebPush in H. apply rbind_Ok in H. destruct H as (u & _ & H).
  apply rbind_Ok in H. destruct H as ([[[ob off] ib] s1] & H1 & H). 
  assert (Is : I s1).
  { destruct (N <=? r_offset r + zlen inb); [|injection H1 as _ _ _ <-; exact Hs].
    apply rbind_Ok in H1. destruct H1 as (seg & _ & H1). apply rbind_Ok in H1. destruct H1 as (ob' & _ & H1).
    apply rbind_Ok in H1. destruct H1 as ([[[ob2 off2] ib2] s2] & H2 & H1). apply rbind_Ok in H1. destruct H1 as (u2 & _ & H1). injection H1 as _ _ _ <-.
    destruct m.
    - apply rbind_Ok in H2. destruct H2 as (u3 & _ & H2). apply rbind_Ok in H2. destruct H2 as (seg2 & _ & H2). apply rbind_Ok in H2. destruct H2 as (ob3 & _ & H2).
      apply rbind_Ok in H2. destruct H2 as (s3 & H3 & H2). injection H2 as _ _ _ <-. eapply HI; eauto.
    - eapply pushLoop_kept; eauto. }
  apply rbind_Ok in H. destruct H as (u4 & _ & H). apply rbind_Ok in H. destruct H as (b4 & _ & H). apply rbind_Ok in H. destruct H as (u5 & _ & H). injection H as _ _ <-. exact Is.
Qed.
Lemma userPush_kept st chunk st' n : Forall okF (map conv chunk) -> kept (ws_file st) (ws_track st) n -> userPush c conv junk true st chunk = Ok st' ->
  kept (ws_file st') (ws_track st') (n + zlen chunk).
Proof.
  intros Hok Hk H. unfold userPush in H. pose proof Hlaw as HL. destruct c as [p bpf enc|fpp bpp encB] eqn:Ec.
  - apply rbind_Ok in H. destruct H as ([f t] & H1 & H). injection H as <-. cbn [ws_file ws_track]. unfold perFramePush in H1.
    destruct (bpf <=? 0); [discriminate|]. unfold fmWrite in H1. apply rbind_Ok in H1. destruct H1 as (u & _ & H1). injection H1 as <- <-.
    destruct Hk as (H1 & H2 & H3 & H4 & H5 & H6). set (d := concat (map enc (map conv chunk))) in *. pose proof (zlen_nonneg d).
    unfold kept. rewrite Ec in *. cbn [fwrite fbytes fpos advance w_first w_dsize w_nextpos]. split; [apply HPow; auto|]. do 4 (split; [lia|]).
    destruct p; [|exact I]. destruct HL as [_ HL].
    assert (zlen d = bpf * zlen chunk).
    { unfold d. rewrite (zlen_chunk_frames _ bpf); [now rewrite !zlen_map|]. apply Forall_map. eapply Forall_impl; [|exact Hok]. intros x Hx. apply HL. exact Hx. }
    lia.
  - apply rbind_Ok in H. destruct H as ([[r o] [[f t] e]] & H1 & H). injection H as <-. cbn [ws_file ws_track].
    apply (rebPush_kept _ _ (fun s => kept (fst (fst s)) (snd (fst s)) (n + zlen chunk))) in H1; [exact H1| |].
    + intros s buf k s' Hs Hp. eapply blockPush_kept; eauto.
    + cbn [fst snd]. destruct Hk as (H2 & H3 & H4 & H5 & H6 & _). unfold kept. rewrite Ec. repeat split; auto.
Qed.
Lemma kept_mono f t n m : n <= m -> kept f t n -> kept f t m.
Proof.
  intros H (H1 & H2 & H3 & H4 & H5 & H6). unfold kept. do 5 (split; [auto|]). pose proof Hlaw as HL. destruct c as [[|] bpf enc|]; auto. destruct HL as [HL _]. nia.
Qed.
Lemma writeLoop_kept fuel : forall st samples v n m st' v', Forall okF (map conv samples) -> 0 <= v <= zlen samples -> n = zlen samples ->
  kept (ws_file st) (ws_track st) (m + v) -> writeLoop c conv junk true fuel st samples v n = Ok (st', v') -> kept (ws_file st') (ws_track st') (m + n) /\ v' = n.
Proof.
  induction fuel as [|fuel IH]; intros st samples v n m st' v' Hok Hv Hn Hk; cbn [writeLoop].
  - destruct (v <? n) eqn:EV; cbn [negb]; [discriminate|]. intros [= <- <-]. assert (v = n) by lia. subst v. split; [exact Hk|reflexivity].
  - destruct (v <? n) eqn:EV; cbn [negb].
    + set (count := if v <=? n - ATOMIC then ATOMIC else n - v). intros H. apply rbind_Ok in H. destruct H as (chunk & Hc & H). apply rbind_Ok in H. destruct H as (st1 & H1 & H).
      assert (HC : 0 < count <= n - v) by (unfold count; destruct (v <=? n - ATOMIC) eqn:EW; unfold ATOMIC in *; lia).
      assert (Ech : chunk = zfirstn count (zskipn v samples)).
      { rewrite RebufferProofs.slice_ok in Hc by lia. injection Hc as <-. reflexivity. }
      assert (Lc : zlen chunk = count) by (rewrite Ech, zlen_firstn, zlen_skipn by lia; lia).
      eapply IH; [exact Hok| |exact Hn| |exact H]; [lia|]. rewrite Z.add_assoc. rewrite <- Lc. eapply userPush_kept; [|exact Hk|exact H1].
      rewrite Ech. rewrite <- (zfirstn_skipn v samples), map_app in Hok. apply Forall_app in Hok. destruct Hok as [_ Hok].
      rewrite <- (zfirstn_skipn count (zskipn v samples)), map_app in Hok. apply Forall_app in Hok. tauto.
    + intros [= <- <-]. assert (v = n) by lia. subst v. split; [exact Hk|reflexivity].
Qed.

Definition keptAfter (st : wstate F E) (n : Z) (afterSync : bool) : Prop :=
  kept (fseek (ws_file st) (w_nextpos (ws_track st))) (ws_track st) n /\ (afterSync = false -> first <= fpos (ws_file st)).
Lemma write_kept st l st' k n a : Forall okF (map conv l) -> keptAfter st n a -> afWriteFrames c conv junk true st l = Ok (k, st') -> keptAfter st' (n + zlen l) false.
Proof.
  intros Hok [Hk _] H. unfold afWriteFrames in H. apply rbind_Ok in H. destruct H as ([st1 v] & H1 & H). injection H as <- <-.
  apply (writeLoop_kept _ _ _ _ _ n) in H1; auto; [|pose proof (zlen_nonneg l); lia| rewrite Z.add_0_r; exact Hk].
  destruct H1 as [(H2 & H3 & H4 & H5 & H6 & H7) ->]. unfold keptAfter, kept, wsetTrack, fseek. cbn. repeat split; auto.
Qed.
Lemma sync_kept st st' n : smallPCM c first n -> 0 <= first -> keptAfter st n false -> afSyncFile c junk true upd st = Ok st' -> keptAfter st' n true.
Proof.
  intros Hs Hf [(H1 & H2 & H3 & H4 & _ & H5) H6] H. specialize (H6 eq_refl). unfold fseek in H1. cbn [fbytes] in H1.
  unfold afSyncFile in H. apply rbind_Ok in H. destruct H as (st1 & H & E1). injection E1 as <-.
  assert (Q : P (fbytes (ws_file st1)) /\ w_first (ws_track st1) = first /\ 0 <= w_dsize (ws_track st1) /\ first <= w_nextpos (ws_track st1) /\ first <= w_after (ws_track st1) /\
              match c with WPerFrame true bpf _ => w_nextpos (ws_track st1) <= first + bpf * n | _ => True end).
  { unfold modulesSync in H. unfold smallPCM in Hs. pose proof Hlaw as HL. destruct c as [p bpf enc|fpp bpp encB] eqn:Ec.
    - apply rbind_Ok in H. destruct H as (t & H & E2). injection E2 as <-. unfold fileSync2 in H. apply rbind_Ok in H. destruct H as (u & _ & H). injection H as <-.
      unfold wsetTrack, fileSync1. cbn [ws_file ws_track w_first w_dsize w_nextpos w_after w_savedpos].
      assert (En : (if p then s32 (w_nextpos (ws_track st)) else w_nextpos (ws_track st)) = w_nextpos (ws_track st)).
      { destruct p; [|reflexivity]. unfold s32. apply sN_small; [lia|]. change (2 ^ (32 - 1)) with 2147483648. change (2 ^ 31) with 2147483648 in Hs. lia. }
      replace (match p with true => s32 | false => fun x => x end (w_nextpos (ws_track st))) with (w_nextpos (ws_track st)) by (destruct p; auto).
      unfold ftell. repeat split; auto.
    - apply rbind_Ok in H. destruct H as (r & _ & H). apply rbind_Ok in H. destruct H as ([[r' o] [[f t] e]] & H & E2). apply rbind_Ok in E2. destruct E2 as (t' & H' & E2). injection E2 as <-.
      unfold rebSync2 in H. do 3 (apply rbind_Ok in H; destruct H as (? & _ & H)). apply rbind_Ok in H. destruct H as ([[f1 t1] e1] & Hp & H). apply rbind_Ok in H. destruct H as (u2 & _ & H).
      injection H as <- <- <- <- <-.
      assert (Hsv : w_savedpos t1 = w_nextpos (ws_track st)).
      { unfold blockPush in Hp. destruct ((fpp <=? 0) || (bpp <=? 0)); [discriminate|]. apply rbind_Ok in Hp. destruct Hp as ([d e2] & _ & Hp). unfold fmWrite in Hp.
        apply rbind_Ok in Hp. destruct Hp as (u3 & _ & Hp). injection Hp as _ <- _. reflexivity. }
      apply (blockPush_kept _ _ _ _ _ _ _ n Ec) in Hp.
      2:{ cbn [fst snd]. unfold kept, fileSync1. rewrite Ec. cbn [w_first w_dsize w_nextpos]. repeat split; auto. }
      cbn [fst snd] in Hp. destruct Hp as (K1 & K2 & K3 & K4 & K5 & _). unfold fileSync2 in H'. apply rbind_Ok in H'. destruct H' as (u3 & _ & H'). injection H' as <-.
      cbn [ws_file ws_track w_first w_dsize w_nextpos w_after]. rewrite Hsv. unfold ftell. repeat split; auto. }
  destruct Q as (Q1 & Q2 & Q3 & Q4 & Q5 & Q6). split; [|discriminate]. unfold kept, wsetFile, fseek. cbn [ws_file ws_track fbytes fpos]. repeat split; auto.
Qed.
Lemma run_kept ops : forall st st' n a, 0 <= first -> keptAfter st n a -> spaced a ops -> Forall okF (map conv (written ops)) -> 0 <= n -> smallPCM c first (n + zlen (written ops)) ->
  wrun c conv junk true upd st ops = Ok st' -> P (fbytes (ws_file st')).
Proof.
  induction ops as [|o ops IH]; intros st st' n a Hf Hk Hsp Hok Hn Hs.
  - cbn [wrun]. intros [= <-]. destruct Hk as [(H & _) _]. exact H.
  - assert (Ew : written (o :: ops) = (match o with Write l => l | Sync => [] end) ++ written ops) by reflexivity.
    rewrite Ew in *. rewrite map_app in Hok. apply Forall_app in Hok. destruct Hok as [Hok1 Hok2]. rewrite zlen_app in Hs.
    cbn [wrun]. intros H. apply rbind_Ok in H. destruct H as (st1 & H1 & H). destruct o as [w|]; cbn [wstep] in H1.
    + apply rbind_Ok in H1. destruct H1 as ([k s1] & H1 & EQ). injection EQ as <-. pose proof (zlen_nonneg w).
      eapply (IH s1 st' (n + zlen w) false); auto; [eapply write_kept; eauto|lia|]. rewrite Z.add_assoc in Hs. exact Hs.
    + destruct Hsp as [-> Hsp]. eapply (IH st1 st' n true); auto. eapply sync_kept; [|exact Hf|exact Hk|exact H1].
      unfold smallPCM in *. pose proof (zlen_nonneg (written ops)). rewrite zlen_nil in Hs. pose proof Hlaw as HL. destruct c as [[|] bpf enc|]; auto. destruct HL as [HL _]. nia.
Qed.
End Keep.

(** ** The formats *)
(** How long the marks are. *)
Definition markLen (i : Z) : Z := if (i =? 1) || (i =? 2) || (i =? 4) || (i =? 10) then 12 else if i =? 11 then 18 else if i =? 12 then 20 else if i =? 13 then 16 else if i =? 15 then 8 else 4.
Lemma marked_ow i b p d : marked i b -> markLen i <= p -> marked i (overwrite b p d).
Proof.
  intros M. assert (T : forall t s y r, zlen t = 4 -> zlen s = 4 -> zlen y = 4 -> 12 <= p -> overwrite (t ++ s ++ y ++ r) p d = t ++ s ++ y ++ overwrite r (p - 12) d).
  { intros t s y r Lt Ls Ly Hp. rewrite ow_past by lia. rewrite ow_past by lia. rewrite ow_past by lia. do 4 f_equal. lia. }
  destruct M as [s r L|s r L|r|s r L|m r Hm|r|s r L|r|r|r|r|r]; intros Hp; try (rewrite T by (auto; reflexivity); constructor; exact L).
  2:{ rewrite ow_past; [constructor; exact Hm|]. assert (zlen m = 4) by (cbn [In] in Hm; intuition; subst m; reflexivity). change (markLen 5) with 4 in Hp. lia. }
  6:{ rewrite ow_past by exact (Z.le_trans 4 8 _ ltac:(lia) Hp). rewrite ow_past by (change (zlen [0;1;0;0]) with 4; change (zlen (ascii4 99 97 102 102)) with 4; change (markLen 15) with 8 in Hp; lia). constructor. }
  all: rewrite ow_past by exact Hp; constructor.
Qed.
Lemma marked_size i b d : In i [1; 2; 4; 10] -> zlen d = 4 -> marked i b -> marked i (overwrite b 4 d).
Proof.
  intros Hi Ld M. assert (T : forall t s r, zlen t = 4 -> zlen s = 4 -> overwrite (t ++ s ++ r) 4 d = t ++ d ++ r).
  { intros t s r Lt Ls. rewrite <- Lt. apply ow_mid. lia. }
  destruct M; cbn [In] in Hi; try (exfalso; lia); rewrite T by (auto; reflexivity); constructor; exact Ld.
Qed.

(** A file format as the writer sees it: its number, the bytes afOpenFile writes, what a sync or a close rewrites, and where the audio data starts. *)
Inductive format_of : Z -> list Z -> (file -> wtrack -> file) -> Z -> Prop :=
| FO_aiff aifc fm x xs : format_of (if aifc : bool then 1 else 2) (AIFF.aiffInit aifc fm x) (fun f t => AIFF.aiffUpdate aifc fm (xs t) f t) (AIFF.aiffFirst aifc fm x)
| FO_next fm : format_of 3 (NeXT.nextInit fm) (NeXT.nextUpdate fm) NeXT.nextFirst
| FO_wave fm fb x xs : WAVE.fmtBytes fm = Ok fb -> format_of 4 (WAVE.waveInit fb fm x) (fun f t => WAVE.waveUpdate fb fm x (xs t) f t) (WAVE.waveFirst fb fm x)
| FO_ircam host fm hdr : IRCAM.ircamInit host fm = Some hdr -> format_of 5 hdr IRCAM.ircamUpdate IRCAM.ircamFirst
| FO_avr name fm : zlen name = 8 -> format_of 9 (AVR.avrInit name fm) AVR.avrUpdate AVR.avrFirst
| FO_iff rate ms mss : format_of 10 (IFF.iffInit rate ms) (fun f t => IFF.iffUpdate rate (mss t) f t) (IFF.iffFirst rate ms)
| FO_smp rate : format_of 11 SampleVision.smpInit (SampleVision.smpUpdate rate) SampleVision.smpFirst
| FO_voc fm : VOC.vocWritable fm = true -> format_of 12 (VOC.vocInit fm) (VOC.vocUpdate fm) VOC.vocFirst
| FO_nist fm : NIST.nistWritable fm = true -> format_of 13 (NIST.nistInit fm) (NIST.nistUpdate fm) NIST.nistFirst
| FO_caf fm : format_of 15 (CAF.cafInit fm) CAF.cafUpdate CAF.cafFirst.

Lemma fmark_write i f p d : marked i (fbytes f) -> markLen i <= p -> marked i (fbytes (fwrite (fseek f p) d)).
Proof. intros M H. unfold fwrite, fseek. cbn [fbytes fpos]. now apply marked_ow. Qed.
Lemma format_keeps i hdr upd first : format_of i hdr upd first ->
  marked i hdr /\ markLen i <= first /\
  forall f t, w_first t = first -> 0 <= w_dsize t -> first <= w_after t -> marked i (fbytes f) -> marked i (fbytes (upd f t)).
Proof.
  intros H.
  destruct H as [aifc fm x xs|fm|fm fb x xs Hfb|host fm hdr Hh|name fm Ln|rate ms mss|rate|fm Hw|fm Hw|fm].
  - split; [|split].
    + unfold AIFF.aiffInit, AIFF.formTag. destruct aifc; constructor; reflexivity.
    + unfold AIFF.aiffFirst. match goal with |- context [zlen ?x] => pose proof (zlen_nonneg x) end. destruct aifc; [change (markLen 1) with 12|change (markLen 2) with 12]; lia.
    + intros f t _ _ _ M. unfold AIFF.aiffUpdate. apply fmark_write; [|destruct aifc; reflexivity || (vm_compute; discriminate)].
      unfold fwrite, fseek. cbn [fbytes fpos]. apply marked_size; [destruct aifc; cbn [In]; auto|apply sampleBytes_len|exact M].
  - split; [|split].
    + constructor.
    + vm_compute; discriminate.
    + intros f t _ _ _ _. unfold NeXT.nextUpdate, NeXT.nextHeader, fwrite, fseek. cbn [fbytes fpos]. destruct (ow_head (fbytes f) (NeXT.nextHeader fm (w_first t) (w_dsize t))) as (r & E).
      unfold NeXT.nextHeader in E. rewrite E. rewrite <- app_assoc. constructor.
  - split; [|split].
    + constructor. reflexivity.
    + unfold WAVE.waveFirst. match goal with |- context [zlen ?x] => pose proof (zlen_nonneg x) end. change (markLen 4) with 12. lia.
    + intros f t _ _ _ M. unfold WAVE.waveUpdate. assert (ML : markLen 4 = 12) by reflexivity.
      assert (O1 : 12 <= WAVE.offMark x) by (unfold WAVE.offMark; match goal with |- context [zlen ?x] => pose proof (zlen_nonneg x) end; lia).
      assert (O2 : 12 <= WAVE.offFact fb x) by (unfold WAVE.offFact; pose proof (zlen_nonneg (WAVE.cueBytes (WAVE.wx_marks x))); pose proof (zlen_nonneg fb); lia).
      assert (O3 : 12 <= WAVE.offSize fb fm x) by (unfold WAVE.offSize; pose proof (zlen_nonneg (WAVE.factBytes fm 0)); lia).
      cbv zeta. repeat (apply fmark_write; [|lia]). unfold fwrite at 1. cbn [fbytes fseek fpos]. apply marked_size; [cbn [In]; auto|apply sampleBytes_len|].
      apply fmark_write; [|lia]. destruct (WAVE.hasFact fm); [apply fmark_write; [exact M|lia]|exact M].
  - unfold IRCAM.ircamInit in Hh. destruct (IRCAM.packMode fm) as [mode|]; [|discriminate]. injection Hh as <-. split; [|split].
    + constructor. destruct host; cbn [In]; auto.
    + vm_compute; discriminate.
    + auto.
  - split; [|split].
    + unfold AVR.avrInit, AVR.avrPre. rewrite <- !app_assoc. constructor.
    + vm_compute; discriminate.
    + intros f t _ _ _ M. unfold AVR.avrUpdate. apply fmark_write; [exact M|vm_compute; discriminate].
  - split; [|split].
    + constructor. reflexivity.
    + unfold IFF.iffFirst. match goal with |- context [zlen ?x] => pose proof (zlen_nonneg x) end. change (markLen 10) with 12. lia.
    + intros f t _ _ _ M. unfold IFF.iffUpdate. cbv zeta. unfold fwrite at 1. cbn [fbytes fseek fpos]. apply marked_size; [cbn [In]; auto|apply sampleBytes_len|].
      assert (M1 : marked 10 (fbytes (fwrite (fseek f 12) (IFF.iffBody rate (mss t) (w_totalf t))))) by (apply fmark_write; [exact M|vm_compute; discriminate]).
      destruct (u32 (w_totalf t) mod 2 =? 1); [|exact M1]. apply fmark_write; [exact M1|]. change (markLen 10) with 12.
      match goal with |- context [zlen ?x] => pose proof (zlen_nonneg x) end. pose proof (Z.mod_pos_bound (w_totalf t) (2 ^ 32) ltac:(reflexivity)). unfold u32, uN. lia.
  - split; [|split].
    + unfold SampleVision.smpInit, SampleVision.smpPre. rewrite <- !app_assoc. constructor.
    + vm_compute; discriminate.
    + intros f t _ _ Ha M. unfold SampleVision.smpUpdate. cbv zeta. apply fmark_write; [apply fmark_write; [exact M|vm_compute; discriminate]|]. change (markLen 11) with 18. unfold SampleVision.smpFirst in *. lia.
  - split; [|split].
    + unfold VOC.vocInit, VOC.vocPre. rewrite <- !app_assoc. constructor.
    + vm_compute; discriminate.
    + intros f t Hf Hd _ M. unfold VOC.vocUpdate. cbv zeta. apply fmark_write; [apply fmark_write; [exact M|vm_compute; discriminate]|]. change (markLen 12) with 20. unfold VOC.vocFirst in *. lia.
  - assert (N : forall total, exists r, NIST.nistHeader fm total = NIST.nistMagic ++ r).
    { intros total. unfold NIST.nistHeader, NIST.nistText, NIST.nistMagic, NIST.intLine at 1, NIST.line at 2. cbv zeta. eexists. rewrite <- !app_assoc. reflexivity. }
    split; [|split].
    + unfold NIST.nistInit. destruct (N 0) as (r & ->). constructor.
    + vm_compute; discriminate.
    + intros f t _ _ _ _. unfold NIST.nistUpdate. destruct (N (w_totalf t)) as (r & ->). unfold fwrite, fseek. cbn [fbytes fpos].
      destruct (ow_head (fbytes f) (NIST.nistMagic ++ r)) as (r' & ->). rewrite <- app_assoc. constructor.
  - split; [|split].
    + unfold CAF.cafInit, CAF.cafPre, CAF.cafMagic. rewrite <- !app_assoc. constructor.
    + vm_compute; discriminate.
    + intros f t _ _ _ M. unfold CAF.cafUpdate. cbn [fbytes fseek]. apply fmark_write; [exact M|vm_compute; discriminate].
Qed.

(** At every moment after opening - closed or not, synced or not - the file is identified as the format it is being written in:
    every format, every codec of the library, every history of writes and syncs (no sync directly after another; PCM below 2 GiB, see C27). *)
Theorem C50_written_file_identified_partial :
  forall (B : Build) i hdr upd first, format_of i hdr upd first ->
  forall E c okF okE, library E c okF okE ->
  forall V (conv : V -> list Z) junk cap e0 (ops : list wop) st p,
    spaced false ops -> Forall (fun v => okF (conv v)) (written ops) -> smallPCM c first (zlen (written ops)) ->
    wrun c conv junk true upd (openWrite c hdr first cap e0) ops = Ok st ->
    afIdentify true (mkFile (fbytes (ws_file st)) p) = i.
Proof.
  intros B i hdr upd first HF E c okF okE HL V conv junk cap e0 ops st p Hsp Hok Hs R.
  destruct (format_keeps _ _ _ _ HF) as (M0 & Hlen & HU). assert (0 <= first) by (unfold markLen in Hlen; repeat match type of Hlen with context [if ?c then _ else _] => destruct c end; lia).
  assert (M : marked i (fbytes (ws_file st))).
  { apply (run_kept c conv junk upd okF okE (library_lawful _ _ _ _ HL) (marked i) first) with (ops := ops) (st := openWrite c hdr first cap e0) (n := 0) (a := false); auto; try lia.
    - intros b q d Hq Mb. apply marked_ow; [exact Mb|lia].
    - unfold keptAfter, kept, openWrite, fseek. cbn. repeat split; auto; try lia. destruct c as [[|] ? ?|]; auto; lia.
    - apply Forall_map. exact Hok. }
  apply (C50_identification_exact _ p i) in M. apply M.
Qed.
Print Assumptions C50_written_file_identified_partial.

(** The hypotheses are met: a stereo AIFF-C file of u-law, synced in the middle and not closed, is identified as AIFF-C. *)
Definition exFmt : formatOf SpecFloat.spec_float := mkFmt (SpecFloat.S754_zero false) TwosComp 16 2 BigEndian CUlaw 1 2.
Definition exAiff := AIFF.AExtra [] (AIFF.AInst 60 0 0 127 1 127 0 0 0 0 0 0 0) None [].
Example C50_example :
  format_of 1 (AIFF.aiffInit true exFmt exAiff) (fun f t => AIFF.aiffUpdate true exFmt exAiff f t) (AIFF.aiffFirst true exFmt exAiff) /\
  (forall B : Build, exists st,
    wrun (ulawW 2) (fun x => x) [0; 0] true (fun f t => AIFF.aiffUpdate true exFmt exAiff f t)
      (openWrite (ulawW 2) (AIFF.aiffInit true exFmt exAiff) (AIFF.aiffFirst true exFmt exAiff) 1024 tt) [Write [[1; 2]; [3; -4]]; Sync; Write [[5; 6]]] = Ok st /\
    afIdentify true (mkFile (fbytes (ws_file st)) 7) = 1) /\
  spaced false [Write [[1; 2]; [3; -4]]; Sync; Write [[5; 6]]] /\
  afIdentify true (mkFile [] 0) = -1 /\ afIdentify true (mkFile [70; 79; 82; 77; 0; 0; 0; 4; 65; 73; 70] 0) = -1.
Proof.
  split; [exact (FO_aiff true exFmt exAiff (fun _ => exAiff))|]. split; [intros [|]; eexists; split; vm_compute; reflexivity|]. repeat split.
Qed.

(** Beyond: a NeXT file of 2^32 bytes, synced, and then one more frame: the frame is written over the header (see C27). *)
Theorem C50_large_pcm_file_refuted :
  forall (B : Build) fm cap (ws : list (list (list Z))),
    Forall (fun x => zlen x = 1) (concat ws) -> 28 + 2 * zlen (concat ws) = 2 ^ 32 ->
    exists st, wrun (pcmW BigEndian 2 1) (fun x => x) [0] true (NeXT.nextUpdate fm) (openWrite (pcmW BigEndian 2 1) (NeXT.nextInit fm) 28 cap tt) (map Write ws ++ [Sync; Write [[0]]]) = Ok st /\
      afIdentify true (mkFile (fbytes (ws_file st)) 0) <> 3.
Proof.
  intros B fm cap ws Hok Hn. set (c := pcmW BigEndian 2 1).
  assert (HL : library unit c (frameOf 1 (fun _ => True)) (fun _ => True)) by (apply L_pcm; lia). pose proof (library_lawful _ _ _ _ HL) as Hlaw.
  assert (Hok' : Forall (frameOf 1 (fun _ => True)) (map (fun x => x) (concat ws))).
  { rewrite map_id. eapply Forall_impl; [|exact Hok]. intros x Hx. split; [exact Hx|apply Forall_forall; auto]. }
  assert (Hj : frameOf 1 (fun _ => True) [0]) by (split; [reflexivity|apply Forall_forall; auto]).
  destruct (writes_sync c (fun x => x) [0] (NeXT.nextUpdate fm) _ _ Hlaw Hj (NeXT.nextInit fm) 28 cap tt ltac:(lia) I I ws Hok') as (d & st & A & R & T & _).
  cbn [audio c pcmW] in A. injection A as Ad.
  assert (Ld : zlen d = 2 * zlen (concat ws)).
  { rewrite <- Ad. rewrite (zlen_chunk_frames _ 2); [now rewrite !zlen_map|]. apply Forall_map. eapply Forall_impl; [|exact Hok']. intros x Hx. apply (proj2 Hlaw). exact Hx. }
  assert (Np : w_nextpos (ws_track st) = 0).
  { rewrite T. unfold finalTrack. cbn [w_nextpos]. rewrite Ld, Hn. reflexivity. }
  replace (map Write ws ++ [Sync; Write [[0]]]) with ((map Write ws ++ [Sync]) ++ [Write [[0]]]) by (rewrite <- app_assoc; reflexivity).
  rewrite wrun_app, R. cbn [rbind wrun wstep]. clear R T. destruct st as [sf t e r o]. cbn [ws_track] in Np.
  assert (W : exists st', afWriteFrames c (fun x => x) [0] true (mkWS sf t e r o) [[0]] = Ok (1, st') /\ exists rest, fbytes (ws_file st') = 0 :: rest).
  { unfold afWriteFrames, c, pcmW. cbn [ws_track]. rewrite Np. change (zlen [[0]]) with 1. change (Z.to_nat 1 + 1)%nat with 2%nat. cbn [writeLoop].
    change (0 <? 1) with true. change (0 <=? 1 - ATOMIC) with false. cbn [negb]. change (slice [[0]] 0 (1 - 0)) with (Ok [[0]]). cbn [rbind].
    unfold userPush, perFramePush, wsetFile. cbn [ws_file ws_track]. change (Z.of_nat 2 * 1 <=? 0) with false. cbv iota.
    cbn [map concat]. rewrite app_nil_r. unfold fmWrite. cbn [fwrite fseek fpos fbytes ftell advance w_nextpos w_nextf]. rewrite Np. rewrite Z.eqb_refl.
    unfold rassert. cbn [negb orb]. change (0 + (1 - 0) <? 1) with false. destruct B; cbn [rbind negb]; (eexists; split; [reflexivity|]); cbn [ws_file wsetTrack fbytes].
    all: destruct (ow_head (fbytes sf) [0; 0]) as (rest & E2); eexists; etransitivity; [exact E2|reflexivity]. }
  destruct W as (st' & -> & rest & E). cbn [rbind]. exists st'. split; [reflexivity|]. intros H.
  assert (M : marked 3 (fbytes (ws_file st'))) by (apply (C50_identification_exact _ 0); split; [exact H|discriminate]).
  rewrite E in M. inversion M.
Qed.
Print Assumptions C50_large_pcm_file_refuted.
Lemma many_frames n : 0 <= n -> exists ws : list (list (list Z)), Forall (fun x => zlen x = 1) (concat ws) /\ zlen (concat ws) = n.
Proof.
  intros Hn. exists [zrepeat [0] n]. cbn [concat]. rewrite app_nil_r. split.
  - apply Forall_forall. intros x Hx. unfold zrepeat in Hx. apply repeat_spec in Hx. subst x. reflexivity.
  - now rewrite zlen_repeat.
Qed.
Example C50_large_pcm_file_example : exists ws : list (list (list Z)), Forall (fun x => zlen x = 1) (concat ws) /\ 28 + 2 * zlen (concat ws) = 2 ^ 32.
Proof. destruct (many_frames 2147483634 ltac:(lia)) as (ws & H & L). exists ws. split; [exact H|]. rewrite L. reflexivity. Qed.
