(** * Header readers that are defined on a file

    [runs b q p Q]: on a file with the bytes [b] at position [q], [p] either refuses the file or succeeds, leaving the bytes
    as they are, with a value and a position that satisfy [Q].  It is neither undefined nor stopped by an assertion. *)
From Verif Require Import Prelude PreludeFacts ByteOrder FileIO WriterSpec Codecs HeaderIO Chunks Yields.
From Coq Require Import Lia.

Definition runs {A} (b : list Z) (q : Z) (p : hP A) (Q : A -> Z -> Prop) : Prop :=
  p (mkFile b q) = Ok None \/ exists a q', p (mkFile b q) = Ok (Some (a, mkFile b q')) /\ Q a q'.

Section Rules.
Variable b : list Z.
Hypothesis Hb : bytes_ok b = true.

Lemma r_bind {A C} q (p : hP A) (k : A -> hP C) P Q : runs b q p P -> (forall a q', P a q' -> runs b q' (k a) Q) -> runs b q (hbind p k) Q.
Proof.
  intros [E|(a & q' & E & Pa)] Hk; [left; unfold hbind; now rewrite E|]. specialize (Hk a q' Pa).
  unfold runs, hbind. rewrite E. exact Hk.
Qed.
Lemma r_weak {A} q (p : hP A) (P Q : A -> Z -> Prop) : runs b q p P -> (forall a q', P a q' -> Q a q') -> runs b q p Q.
Proof. intros [E|(a & q' & E & Pa)] H; [now left|right; eauto]. Qed.
Lemma r_ret {A} q (a : A) (Q : A -> Z -> Prop) : Q a q -> runs b q (hret a) Q.
Proof. intros H. right. exists a, q. auto. Qed.
Lemma r_fail {A} q (Q : A -> Z -> Prop) : runs b q hfail Q. Proof. now left. Qed.
Lemma r_seek q n : runs b q (hseek n) (fun _ q' => q' = n).
Proof. right. exists tt, n. auto. Qed.
Lemma r_skip q n : runs b q (hskip n) (fun _ q' => q' = q + n).
Proof. right. exists tt, (q + n). auto. Qed.
Lemma r_tell q : runs b q htell (fun p q' => p = q /\ q' = q).
Proof. right. exists q, q. auto. Qed.
Lemma r_length q : runs b q hlength (fun n q' => n = zlen b /\ q' = q).
Proof. right. exists (zlen b), q. auto. Qed.
Lemma r_lift {A} q (r : res A) (Q : A -> Z -> Prop) : (exists a, r = Ok a /\ Q a q) -> runs b q (hlift r) Q.
Proof. intros (a & -> & H). right. exists a, q. auto. Qed.
Lemma r_ok {A C} q (r : res A) (a : A) (k : A -> hP C) Q : r = Ok a -> runs b q (k a) Q -> runs b q (hbind (hlift r) k) Q.
Proof. intros -> H. unfold runs, hbind, hlift. cbn [rbind]. exact H. Qed.
Lemma r_assert {B : Build} q (c : bool) : B = Release \/ c = true -> runs b q (hassert c) (fun _ q' => q' = q).
Proof. intros H. right. exists tt, q. split; [|reflexivity]. unfold hassert, rassert. destruct H as [->| ->]; [destruct c; reflexivity|destruct B; reflexivity]. Qed.
Lemma r_read q n : runs b q (hread n) (fun d q' => d = zfirstn n (zskipn q b) /\ q' = q + zlen d).
Proof. right. unfold hread, fread. cbn [fbytes fpos]. eexists _, _. split; [reflexivity|]. auto. Qed.
Lemma got q n : 0 <= q -> 0 <= n -> zlen (zfirstn n (zskipn q b)) = Z.min n (Z.max 0 (zlen b - q)).
Proof. intros Hq Hn. rewrite zlen_firstn, zlen_skipn by lia. lia. Qed.
Lemma r_readU q o n : 0 <= q -> q + Z.of_nat n <= zlen b ->
  runs b q (readU o n) (fun v q' => q' = q + Z.of_nat n /\ v = valueOf o (zfirstn (Z.of_nat n) (zskipn q b)) /\ 0 <= v < 2 ^ (8 * Z.of_nat n)).
Proof.
  intros Hq Hl. right. unfold readU, fread. cbn [fbytes fpos]. pose proof (got q (Z.of_nat n) Hq ltac:(lia)) as L. set (d := zfirstn _ _) in *.
  assert (Ld : zlen d = Z.of_nat n) by lia. rewrite Ld, Z.eqb_refl. eexists _, _. split; [reflexivity|]. split; [reflexivity|]. split; [reflexivity|].
  apply valueOf_range; [unfold d; now apply sub_ok|exact Ld].
Qed.
Lemma r_tryU q o n : 0 <= q ->
  runs b q (tryU o n) (fun v q' => q <= q' <= q + Z.of_nat n /\ (q + Z.of_nat n <= zlen b -> q' = q + Z.of_nat n /\ exists x, v = Some x) /\
    forall x, v = Some x -> x = valueOf o (zfirstn (Z.of_nat n) (zskipn q b)) /\ 0 <= x < 2 ^ (8 * Z.of_nat n)).
Proof.
  intros Hq. right. unfold tryU, fread. cbn [fbytes fpos]. pose proof (got q (Z.of_nat n) Hq ltac:(lia)) as L. set (d := zfirstn _ _) in *.
  eexists _, _. split; [reflexivity|]. split; [lia|]. split.
  - intros Hl. split; [lia|]. replace (zlen d =? Z.of_nat n) with true by lia. eauto.
  - intros x. destruct (zlen d =? Z.of_nat n) eqn:E; [|discriminate]. intros [= <-]. split; [reflexivity|]. apply valueOf_range; [unfold d; now apply sub_ok|lia].
Qed.
Lemma r_tryU' q o n : 0 <= q -> (1 <= n)%nat ->
  runs b q (tryU o n) (fun v q' => v = (if q + Z.of_nat n <=? zlen b then Some (valueOf o (zfirstn (Z.of_nat n) (zskipn q b))) else None) /\
    q' = q + Z.min (Z.of_nat n) (Z.max 0 (zlen b - q))).
Proof.
  intros Hq Hn. right. unfold tryU, fread. cbn [fbytes fpos]. pose proof (got q (Z.of_nat n) Hq ltac:(lia)) as L. set (d := zfirstn _ _) in *.
  eexists _, _. split; [reflexivity|]. split; [|lia]. destruct (Z.leb_spec (q + Z.of_nat n) (zlen b)); [replace (zlen d =? Z.of_nat n) with true by lia|replace (zlen d =? Z.of_nat n) with false by lia]; reflexivity.
Qed.
Lemma r_needU q o n : 0 <= q -> (1 <= n)%nat ->
  runs b q (needU o n) (fun v q' => q' = q + Z.of_nat n /\ q' <= zlen b /\ v = valueOf o (zfirstn (Z.of_nat n) (zskipn q b)) /\ 0 <= v < 2 ^ (8 * Z.of_nat n)).
Proof.
  intros Hq Hn. unfold needU. destruct (Z.le_gt_cases (q + Z.of_nat n) (zlen b)) as [Hl|Hl].
  - eapply r_bind; [apply r_tryU; exact Hq|]. intros v q' (_ & H1 & H2). destruct (H1 Hl) as [-> [x ->]]. destruct (H2 x eq_refl). apply r_ret. auto.
  - left. unfold hbind, tryU, fread. cbn [fbytes fpos rbind]. pose proof (got q (Z.of_nat n) Hq ltac:(lia)) as L. replace (zlen _ =? Z.of_nat n) with false; [reflexivity|]. lia.
Qed.

(** The tag at [p]. *)
Definition tagAt (p : Z) : list Z := let d := zfirstn 4 (zskipn p b) in if zlen d =? 4 then d else [0; 0; 0; 0].
Lemma r_readTag q : 0 <= q -> runs b q readTag (fun t q' => t = tagAt q /\ q <= q' <= q + 4 /\ (q + 4 <= zlen b -> q' = q + 4) /\ (zlen b < q + 4 -> zlen b <= q')).
Proof.
  intros Hq. right. unfold readTag, fread. cbn [fbytes fpos]. pose proof (got q 4 Hq ltac:(lia)) as L. unfold tagAt. set (d := zfirstn 4 _) in *.
  eexists _, _. split; [reflexivity|]. pose proof (zlen_nonneg b). split; [reflexivity|]. lia.
Qed.

(** ** The loop over chunks *)
Section Loop.
Variables (o : order) (wrap : Z -> Z) (size : Z).
Hypothesis Hw : forall x, 0 <= wrap x.
(** From chunk [i] on there is a chunk with [P]. *)
Inductive ahead (P : Z -> Prop) : Z -> Prop :=
| AH_here i : i < size -> P i -> ahead P i
| AH_next i : i < size -> ahead P (nextIndex wrap i (word o b (wrap (i + 8) + 4))) -> ahead P i.
Lemma walk_ahead P i : walk o wrap b size i -> ahead P i -> ahead P 4.
Proof. intros W. induction W as [|i W IH Hi]; auto. intros A. apply IH. now apply AH_next. Qed.
Lemma ahead_inv P i : ahead P i -> i < size /\ (P i \/ ahead P (nextIndex wrap i (word o b (wrap (i + 8) + 4)))).
Proof. intros []; auto. Qed.

Lemma r_chunkLoop {S} (body : S -> list Z -> Z -> hP S) (I : Z -> S -> Prop) :
  (forall i s q, walk o wrap b size i -> i < size -> I i s -> let p := wrap (i + 8) in 0 <= q <= p + 8 -> (p + 8 <= zlen b -> q = p + 8) -> (zlen b < p + 8 -> zlen b <= q) ->
     runs b q (body s (tagAt p) (word o b (p + 4))) (fun s' _ => I (nextIndex wrap i (word o b (p + 4))) s')) ->
  (forall i, walk o wrap b size i -> i < size -> i < nextIndex wrap i (word o b (wrap (i + 8) + 4))) ->
  forall fuel i s, walk o wrap b size i -> I i s -> size - i <= Z.of_nat fuel ->
    runs b (wrap (i + 8)) (chunkLoop o wrap body fuel size i s) (fun s' _ => exists j, size <= j /\ I j s').
Proof.
  intros Hbody Hprog fuel. induction fuel as [|fuel IH]; intros i s W Hi Hf; cbn [chunkLoop].
  - replace (i <? size) with false by lia. cbn [negb]. apply r_ret. exists i. split; [lia|exact Hi].
  - destruct (Z.ltb_spec i size) as [Hlt|Hge]; cbn [negb]; [|apply r_ret; exists i; auto].
    pose proof (Hw (i + 8)) as Hp. set (p := wrap (i + 8)) in *.
    eapply r_bind; [apply r_readTag; exact Hp|]. intros t q1 (-> & Q1 & Q2 & Q2').
    assert (R : runs b q1 (readU0 o 4) (fun v q' => v = word o b (p + 4) /\ 0 <= q' <= p + 8 /\ (p + 8 <= zlen b -> q' = p + 8) /\ (zlen b < p + 8 -> zlen b <= q'))).
    { unfold readU0. destruct (Z.le_gt_cases (p + 4) (zlen b)) as [H4|H4].
      - rewrite (Q2 H4) in *. clear q1 Q1 Q2 Q2'. eapply r_bind; [apply r_tryU'; lia|]. change (Z.of_nat 4) with 4 in *. intros v q2 [-> ->]. apply r_ret. split; [|lia].
        unfold word. pose proof (got (p + 4) 4 ltac:(lia) ltac:(lia)) as L. set (d := zfirstn 4 _) in *.
        destruct (Z.leb_spec (p + 4 + 4) (zlen b)); [replace (zlen d =? 4) with true by lia; reflexivity|replace (zlen d =? 4) with false by lia; reflexivity].
      - specialize (Q2' H4). eapply r_bind; [apply r_tryU'; lia|]. change (Z.of_nat 4) with 4 in *. intros v q2 [-> ->]. apply r_ret.
        replace (q1 + 4 <=? zlen b) with false by lia. split; [|lia]. unfold word. rewrite zskipn_all by lia. reflexivity. }
    eapply r_bind; [exact R|]. intros n q2 (-> & Q3 & Q4 & Q5). eapply r_bind; [apply (Hbody i s q2 W Hlt Hi Q3 Q4 Q5)|]. intros s' q3 Hs'. cbv zeta.
    eapply r_bind; [apply r_seek|]. intros _ q4 ->. apply IH; [exact (W_next o wrap b size i W Hlt)|exact Hs'|]. pose proof (Hprog i W Hlt). fold p in H. lia.
Qed.
End Loop.
End Rules.
