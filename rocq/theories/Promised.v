(** A file that holds fewer frames than its header promises: while the calls stay within the frames it holds, it behaves as a file whose header promises just those. *)
From Verif Require Import Prelude PreludeFacts FileIO Rebuffer Reader ReaderSpec ReaderProofs.

Definition through {X Y} (g : X -> Y) (x : res X) : res Y := match x with Ok v => Ok (g v) | UB => UB | Abort => Abort | OutOfFuel => OutOfFuel end.
Lemma through_bind {X Y X' Y'} (x : res X) (g : X -> X') (x' : res X') (k : X -> res Y) (k' : X' -> res Y') (h : Y -> Y') :
  x' = through g x -> (forall v, x = Ok v -> k' (g v) = through h (k v)) -> rbind x' k' = through h (rbind x k).
Proof. intros -> H. destruct x; cbn [through rbind]; auto. Qed.
Lemma through_pure {X Y Y'} (x : res X) (k : X -> res Y) (k' : X -> res Y') (h : Y -> Y') :
  (forall v, k' v = through h (k v)) -> rbind x k' = through h (rbind x k).
Proof. intros H. destruct x; cbn [through rbind]; auto. Qed.

Section Pull.
Context {B : Build} {A S : Type}.
Variables (pull : S -> Z -> res (list (option A) * S)) (g : S -> S) (N : Z) (mult : bool).
Hypothesis Hp : forall s n, pull (g s) n = through (fun '(l, s) => (l, g s)) (pull s n).

Lemma pullLoop_through : forall fuel eof buffer offset out outPos ftp s,
  pullLoop pull N mult fuel eof buffer offset out outPos ftp (g s)
  = through (fun '(eof, buffer, offset, out, ftp, s) => (eof, buffer, offset, out, ftp, g s)) (pullLoop pull N mult fuel eof buffer offset out outPos ftp s).
Proof.
  induction fuel as [|fuel IH]; intros eof buffer offset out outPos ftp s; cbn [pullLoop]; destruct (eof || (ftp <=? 0)); try reflexivity.
  apply through_pure. intros _. eapply through_bind; [apply Hp|]. intros [inb s1] _. apply through_pure. intros seg. apply through_pure. intros out1. apply through_pure. intros _. cbv zeta.
  destruct (ftp - zlen inb <? 0); repeat (apply through_pure; intros ?); apply IH.
Qed.

Lemma rebPull_through fuel r s n : rebPull pull N mult fuel r (g s) n = through (fun '(l, r, s) => (l, r, g s)) (rebPull pull N mult fuel r s n).
Proof.
  unfold rebPull. apply through_pure. intros _. apply through_pure. intros _. cbv zeta. apply through_pure. intros [[[out outPos] ftp] offset].
  eapply through_bind; [apply pullLoop_through|]. intros [[[[[eof buffer] offset1] out1] ftp1] s1] _. destruct (eof && (0 <? ftp1)); repeat (apply through_pure; intros ?); reflexivity.
Qed.
End Pull.

Section Promised.
Context {B : Build} {F V : Type}.
Variables (c : codec F) (conv : F -> V) (hasConv : bool) (m total : Z).
Hypothesis Hm : 0 <= m <= total.

(** The track as the larger promise leaves it. *)
Definition promise (t : rtrack) : rtrack := mkRT (t_first t) (t_nextf t) total (t_nextpos t) (t_ignore t) (t_nextv t) total (t_happy t).
Definition promised (st : rstate F) : rstate F := mkRS (rs_file st) (promise (rs_track st)) (rs_reb st).

(** What is left to be pulled lies within the [m] frames. *)
Definition room (st : rstate F) (n : Z) : Prop := match c with PerFrame _ _ _ => t_totalf (rs_track st) = m /\ t_nextf (rs_track st) + n <= m | Blocks _ _ _ => True end.

Lemma perFrame_promised p bpf (dec : list Z -> F) f t n : t_totalf t = m -> t_nextf t + n <= m ->
  perFramePull true p bpf dec (f, promise t) n = through (fun '(l, (f, t)) => (l, (f, promise t))) (perFramePull true p bpf dec (f, t) n) /\
  forall l f' t', perFramePull true p bpf dec (f, t) n = Ok (l, (f', t')) -> t_totalf t' = m /\ t_nextf t' = t_nextf t + zlen l /\ zlen l <= n.
Proof.
  intros E1 E2. unfold perFramePull. cbn [promise t_totalf t_nextf t_nextpos t_first t_ignore t_nextv t_totalv t_happy]. rewrite E1.
  replace (m <? t_nextf t + n) with false by lia. replace (total <? t_nextf t + n) with false by lia. rewrite !andb_false_r. cbv zeta.
  destruct (Z.ltb_spec n 0); [split; [reflexivity|discriminate]|]. destruct (Z.leb_spec bpf 0); [split; [reflexivity|discriminate]|]. cbn [orb].
  destruct (fread f (bpf * n)) as [d f1] eqn:Er. replace (total =? -1) with false by lia. replace (m =? -1) with false by lia. split.
  - apply through_pure. intros _. reflexivity.
  - intros l f' t' E. apply rbind_Ok in E. destruct E as (u & _ & E). injection E as <- <- <-. cbn [t_totalf t_nextf].
    unfold fread in Er. injection Er as <- _. set (d := zfirstn _ _). assert (L : zlen d <= bpf * n).
    { unfold d. assert (0 <= bpf * n) by (apply Z.mul_nonneg_nonneg; lia). rewrite zlen_firstn by lia. lia. } pose proof (zlen_nonneg d). clearbody d.
    assert (Q : 0 <= zlen d ÷ bpf <= n). { rewrite Z.quot_div_nonneg by lia. split; [apply Z.div_pos; lia|]. apply Z.div_le_upper_bound; lia. }
    rewrite zlen_map. assert (zlen (chunksOf (Z.to_nat (zlen d ÷ bpf)) bpf d) = zlen d ÷ bpf) by (unfold zlen at 1; rewrite chunksOf_length; lia). lia.
Qed.

Lemma blockPull_promised fpp bpp (decB : list Z -> res (list F)) (s : file * rtrack) n :
  blockPull fpp bpp decB ((fun '(f, t) => (f, promise t)) s) n = through (fun '(l, s) => (l, (fun '(f, t) => (f, promise t)) s)) (blockPull fpp bpp decB s n).
Proof.
  destruct s as [f t]. unfold blockPull. destruct ((fpp <=? 0) || (bpp <=? 0)); [reflexivity|]. apply through_pure. intros _. cbv zeta.
  destruct (fread f _) as [d f1]. apply through_pure. intros bs. apply through_pure. intros _. reflexivity.
Qed.

Lemma userPull_promised st n : room st n ->
  userPull c conv hasConv true (promised st) n = through (fun '(l, st) => (l, promised st)) (userPull c conv hasConv true st n) /\
  forall l st' k, userPull c conv hasConv true st n = Ok (l, st') -> room st k -> room st' (k - zlen l).
Proof.
  unfold room, userPull. cbn [promised rs_file rs_track rs_reb]. destruct c as [p bpf dec|fpp bpp decB].
  - intros [R1 R2]. destruct (perFrame_promised p bpf dec (rs_file st) (rs_track st) n R1 R2) as [E P]. rewrite E. split.
    + eapply through_bind with (g := fun '(chunk, st) => (chunk, promised st)).
      * clear E P. destruct (perFramePull _ _ _ _ _ _) as [[l [f1 t1]]| | |]; reflexivity.
      * intros [l s1] _. reflexivity.
    + intros l st' k K [_ R3]. destruct (perFramePull true p bpf dec (rs_file st, rs_track st) n) as [[l1 [f1 t1]]| | |] eqn:Ep; try discriminate K. destruct (P l1 f1 t1 eq_refl) as (P1 & P2 & P3).
      cbn [rbind] in K. injection K as K <-. cbn [rs_track]. split; [exact P1|]. rewrite P2.
      assert (zlen l1 <= zlen l).
      { rewrite <- K. destruct hasConv; rewrite ?zlen_app, !zlen_map; [|lia]. pose proof (zlen_nonneg (@zrepeat (option V) None (n - zlen l1))). lia. }
      lia.
  - intros _. split; [|auto].
    eapply through_bind with (g := fun '(chunk, st) => (chunk, promised st)).
    + rewrite (rebPull_through (blockPull fpp bpp decB) (fun '(f, t) => (f, promise t)) fpp false (blockPull_promised fpp bpp decB) (Z.to_nat n) (rs_reb st) (rs_file st, rs_track st) n).
      destruct (rebPull _ _ _ _ _ _ _) as [[[l r] [f1 t1]]| | |]; reflexivity.
    + intros [l s1] _. reflexivity.
Qed.

Lemma readLoop_promised : forall fuel st eof acc n, room st (n - zlen acc) ->
  readLoop c conv hasConv true fuel (promised st) eof acc n = through (fun '(l, st) => (l, promised st)) (readLoop c conv hasConv true fuel st eof acc n).
Proof.
  induction fuel as [|fuel IH]; intros st eof acc n R; cbn [readLoop promised rs_track promise t_happy].
  { destruct (negb _); reflexivity. }
  destruct (negb _); [reflexivity|]. cbv zeta. set (k := if zlen acc <=? n - ATOMIC then ATOMIC else n - zlen acc).
  assert (Hk : k <= n - zlen acc). { unfold k. destruct (Z.leb_spec (zlen acc) (n - ATOMIC)); lia. }
  assert (R1 : room st k). { unfold room in *. destruct c; [|exact I]. lia. }
  destruct (userPull_promised st k R1) as [E P]. eapply through_bind; [exact E|]. intros [l s1] E1. specialize (P l s1 _ E1 R).
  cbn [promised rs_track promise t_happy]. destruct (t_happy (rs_track s1)) eqn:Eh; [apply IH|].
  - unfold room in *. destruct c; [|exact I]. rewrite zlen_app. lia.
  - destruct fuel; cbn [readLoop promised rs_track promise t_happy]; rewrite Eh; reflexivity.
Qed.

Lemma afReadFrames_promised st pos n stream bytes first : inv c true bytes first m stream st pos -> pos + n <= m ->
  afReadFrames c conv hasConv true (promised st) n = through (fun '(l, st) => (l, promised st)) (afReadFrames c conv hasConv true st n).
Proof.
  intros (I1 & I2 & I3 & I4 & I5 & I6 & I7 & I8 & I9) Hn. unfold afReadFrames. cbn [promised rs_track promise t_totalv t_nextv t_nextpos t_ignore rs_file rs_reb]. rewrite I3, I4.
  replace (total =? -1) with false by lia. replace (m =? -1) with false by lia. replace (total - pos <? n) with false by lia. replace (m - pos <? n) with false by lia. cbv zeta.
  set (st0 := mkRS (fseek (rs_file st) (t_nextpos (rs_track st))) (setHappy (rs_track st) true) (rs_reb st)).
  change (mkRS (fseek (rs_file st) (t_nextpos (rs_track st))) (setHappy (promise (rs_track st)) true) (rs_reb st)) with (promised st0).
  eapply through_bind with (g := fun '(st, eof) => (promised st, eof)) (x := if negb (t_ignore (rs_track st) =? 0) then if t_ignore (rs_track st) <? 0 then UB else
       do (chunk, s) <- userPull c conv hasConv true st0 (t_ignore (rs_track st));
       Ok (setTrack s (setIgnore (rs_track s) 0), zlen chunk <? t_ignore (rs_track st)) else Ok (st0, false)).
  - destruct (negb _); [|reflexivity]. destruct (_ <? 0); [reflexivity|].
    assert (R : room st0 (t_ignore (rs_track st))).
    { unfold room. destruct c; [|exact I]. unfold at_, seeked in I7. unfold st0. cbn [rs_track setHappy t_totalf t_nextf]. cbn [rs_track] in I7. lia. }
    destruct (userPull_promised st0 _ R) as [E P]. eapply through_bind; [exact E|]. intros [l s1] _. reflexivity.
  - intros [s1 eof] E. eapply through_bind with (g := fun '(l, st) => (l, promised st)).
    + apply readLoop_promised. unfold room. destruct c as [p bpf dec|]; [|exact I]. rewrite zlen_nil.
      unfold at_, seeked in I7. cbn [rs_track] in I7. destruct (Z.eqb_spec (t_ignore (rs_track st)) 0) as [E0|E0]; cbn [negb] in E.
      * injection E as <- _. unfold st0. cbn [rs_track setHappy t_totalf t_nextf]. lia.
      * destruct (_ <? 0); [discriminate E|]. destruct (userPull _ _ _ _ _ _) as [[l s2]| | |] eqn:Eu; try discriminate E. cbn [rbind] in E. injection E as <- _. cbn [setTrack rs_track setIgnore t_totalf t_nextf].
        unfold userPull in Eu. unfold st0 in Eu. cbn [rs_track rs_file rs_reb] in Eu.
        destruct (perFramePull _ _ _ _ _ _) as [[l1 [f1 t1]]| | |] eqn:Ep; try discriminate Eu. cbn [rbind] in Eu. injection Eu as _ <-. cbn [rs_track].
        destruct (perFrame_promised p bpf dec (fseek (rs_file st) (t_nextpos (rs_track st))) (setHappy (rs_track st) true) (t_ignore (rs_track st))) as [_ P]; cbn [setHappy t_totalf t_nextf]; try lia.
        destruct (P _ _ _ Ep) as (P1 & P2 & P3). cbn [setHappy t_nextf] in P2. lia.
    + intros [l s2] _. reflexivity.
Qed.

Lemma setup_promised (st : rstate F) : setupRead c (promised st) = promised (setupRead c st).
Proof. unfold setupRead. destruct c; reflexivity. Qed.

Lemma afSeekFrame_promised st k : t_totalv (rs_track st) = m -> k <= m ->
  afSeekFrame c (promised st) k = (fst (afSeekFrame c st k), promised (snd (afSeekFrame c st k))).
Proof.
  intros E Hk. unfold afSeekFrame. cbn [promised rs_track promise t_nextv t_totalv]. rewrite E. destruct (k <? 0); [reflexivity|]. destruct (k =? _); [reflexivity|].
  replace (total =? -1) with false by lia. replace (m =? -1) with false by lia. replace (total <? k) with false by lia. replace (m <? k) with false by lia. cbn [negb andb]. cbv zeta.
  change (setTrack (promised st) (setNextv (promise (rs_track st)) k)) with (promised (setTrack st (setNextv (rs_track st) k))). rewrite setup_promised. reflexivity.
Qed.

Lemma openRead_promised bytes first : openRead c bytes first total = promised (openRead c bytes first m).
Proof. unfold openRead. rewrite <- setup_promised. unfold setupRead. destruct c; reflexivity. Qed.
End Promised.
