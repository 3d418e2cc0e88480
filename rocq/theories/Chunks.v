(** * Chunked files: the loop over chunks of AIFF.cpp:489-557, IFF.cpp:200-240 and WAVE.cpp:719-799 *)
From Verif Require Import Prelude PreludeFacts ByteOrder FileIO WriterSpec Codecs HeaderIO.

Definition teq (a b : list Z) : bool := if list_eq_dec Z.eq_dec a b then true else false.

(** FileHandle.cpp:473-482 [readTag] into a default Tag (Tag.h:33): zero when the file ends. *)
Definition readTag : hP (list Z) := fun f =>
  let '(d, f) := fread f 4 in Ok (Some (if zlen d =? 4 then d else [0; 0; 0; 0], f)).
(** A variable initialised to 0, read with an unchecked readU16/readU32. *)
Definition readU0 (o : order) (n : nat) : hP Z :=
  let! v := tryU o n in hret (match v with Some x => x | None => 0 end).

(** One more chunk: the size field plus 8 is computed in uint32_t; [wrap] is the reduction of the type of
    [index] (size_t in AIFF and IFF, uint32_t in WAVE). *)
Definition nextIndex (wrap : Z -> Z) (index csize : Z) : Z :=
  let i := wrap (index + u32 (csize + 8)) in if i mod 2 =? 0 then i else wrap (i + 1).

Fixpoint chunkLoop {S} (o : order) (wrap : Z -> Z) (body : S -> list Z -> Z -> hP S) (fuel : nat) (size index : Z) (s : S) : hP S :=
  if negb (index <? size) then hret s
  else match fuel with
  | O => fun _ => OutOfFuel
  | Datatypes.S fuel' =>
      let! tag := readTag in
      let! csize := readU0 o 4 in
      let! s := body s tag csize in
      let index := nextIndex wrap index csize in
      let! _ := hseek (wrap (index + 8)) in
      chunkLoop o wrap body fuel' size index s
  end.

(** ** Facts *)
Lemma teq_refl a : teq a a = true.
Proof. unfold teq. destruct (list_eq_dec Z.eq_dec a a); congruence. Qed.
Lemma readTag_field b p tag rest : 0 <= p -> zskipn p b = tag ++ rest -> zlen tag = 4 -> readTag (mkFile b p) = Ok (Some (tag, mkFile b (p + 4))).
Proof.
  intros Hp H L. unfold readTag, fread. cbn [fbytes fpos]. rewrite H, <- L, zfirstn_exact, Z.eqb_refl. rewrite L. reflexivity.
Qed.
Lemma st_tag {A} b p tag rest (k : list Z -> hP A) : 0 <= p -> zskipn p b = tag ++ rest -> zlen tag = 4 ->
  hbind readTag k (mkFile b p) = k tag (mkFile b (p + 4)).
Proof. intros Hp H L. unfold hbind. now rewrite (readTag_field b p tag rest Hp H L). Qed.
Lemma st_readU0 {A} b p o n x rest (k : Z -> hP A) : 0 <= p -> zskipn p b = sampleBytes o n x ++ rest ->
  hbind (readU0 o n) k (mkFile b p) = k (x mod 2 ^ (8 * Z.of_nat n)) (mkFile b (p + Z.of_nat n)).
Proof. intros Hp H. unfold hbind, readU0, hbind. now rewrite (tryU_field b p o n x rest Hp H). Qed.

(** A chunk: tag, size, contents, and a pad byte after an odd size. *)
Definition chunk (o : order) (tag content : list Z) : list Z :=
  tag ++ sampleBytes o 4 (zlen content) ++ content ++ (if zlen content mod 2 =? 0 then [] else [0]).

(** Reading a chunk that is there. *)
Lemma chunkLoop_step {S} o wrap (body : S -> list Z -> Z -> hP S) fuel size index s b tag n content rest s' f' :
  0 <= index < size -> index mod 2 = 0 -> zlen tag = 4 -> 0 <= n -> index + n + 17 < 2 ^ 32 ->
  (forall x, 0 <= x < 2 ^ 32 -> wrap x = x) ->
  zskipn (index + 8) b = tag ++ sampleBytes o 4 n ++ content ++ rest ->
  zlen content = n + n mod 2 ->
  body s tag n (mkFile b (index + 16)) = Ok (Some (s', f')) -> fbytes f' = b ->
  chunkLoop o wrap body (Datatypes.S fuel) size index s (mkFile b (index + 8))
  = chunkLoop o wrap body fuel size (index + 8 + n + n mod 2) s' (mkFile b (index + 8 + n + n mod 2 + 8))
  /\ zskipn (index + 8 + n + n mod 2 + 8) b = rest /\ (index + 8 + n + n mod 2) mod 2 = 0.
Proof.
  intros Hi He Lt Hn Hsz Hw H Lc Hb Hf. change (2 ^ 32) with 4294967296 in *. assert (Hn2 : 0 <= n mod 2 < 2) by (apply Z.mod_pos_bound; lia).
  cbn [chunkLoop]. replace (index <? size) with true by lia. cbn [negb].
  rewrite (st_tag b (index + 8) tag _ _ ltac:(lia) H Lt). apply skip_field in H; [|lia]. rewrite Lt in H.
  rewrite (st_readU0 b (index + 8 + 4) o 4 n _ _ ltac:(lia) H). apply skip_sample in H; [|lia].
  change (8 * Z.of_nat 4) with 32. change (2 ^ 32) with 4294967296. rewrite (Z.mod_small n) by lia.
  change (Z.of_nat 4) with 4 in *. replace (index + 8 + 4 + 4) with (index + 16) in * by lia.
  unfold hbind at 1. rewrite Hb. cbn [rbind]. 
  assert (En : nextIndex wrap index n = index + 8 + n + n mod 2).
  { unfold nextIndex, u32, uN. change (2 ^ 32) with 4294967296. rewrite (Z.mod_small (n + 8)) by lia. rewrite (Hw (index + (n + 8))) by lia.
    cbv zeta. destruct ((index + (n + 8)) mod 2 =? 0) eqn:E.
    - lia.
    - rewrite Hw by lia. lia. }
  rewrite En. rewrite Hw by lia. rewrite st_seek. rewrite Hf. split; [reflexivity|].
  apply skip_field in H; [|lia]. rewrite Lc in H. split; [rewrite <- H; f_equal; lia|lia].
Qed.
(** The last chunk of a file: what follows does not matter. *)
Lemma chunkLoop_last {S} o wrap (body : S -> list Z -> Z -> hP S) fuel size index s b tag n rest s' f' :
  0 <= index < size -> index mod 2 = 0 -> zlen tag = 4 -> 0 <= n -> index + n + 17 < 2 ^ 32 -> size <= index + n + 8 ->
  (forall x, 0 <= x < 2 ^ 32 -> wrap x = x) ->
  zskipn (index + 8) b = tag ++ sampleBytes o 4 n ++ rest ->
  body s tag n (mkFile b (index + 16)) = Ok (Some (s', f')) -> fbytes f' = b ->
  exists f'', chunkLoop o wrap body (Datatypes.S fuel) size index s (mkFile b (index + 8)) = Ok (Some (s', f'')).
Proof.
  intros Hi He Lt Hn Hsz Hend Hw H Hb Hf. change (2 ^ 32) with 4294967296 in *. assert (Hn2 : 0 <= n mod 2 < 2) by (apply Z.mod_pos_bound; lia).
  cbn [chunkLoop]. replace (index <? size) with true by lia. cbn [negb].
  rewrite (st_tag b (index + 8) tag _ _ ltac:(lia) H Lt). apply skip_field in H; [|lia]. rewrite Lt in H.
  rewrite (st_readU0 b (index + 8 + 4) o 4 n _ _ ltac:(lia) H).
  change (8 * Z.of_nat 4) with 32. change (2 ^ 32) with 4294967296. rewrite (Z.mod_small n) by lia.
  change (Z.of_nat 4) with 4 in *. replace (index + 8 + 4 + 4) with (index + 16) in * by lia.
  unfold hbind at 1. rewrite Hb. cbn [rbind]. 
  assert (En : nextIndex wrap index n = index + 8 + n + n mod 2).
  { unfold nextIndex, u32, uN. change (2 ^ 32) with 4294967296. rewrite (Z.mod_small (n + 8)) by lia. rewrite (Hw (index + (n + 8))) by lia.
    cbv zeta. destruct ((index + (n + 8)) mod 2 =? 0) eqn:E.
    - lia.
    - rewrite Hw by lia. lia. }
  rewrite En. rewrite Hw by lia. rewrite st_seek. rewrite Hf.
  destruct fuel; cbn [chunkLoop]; replace (index + 8 + n + n mod 2 <? size) with false by lia; cbn [negb]; eexists; reflexivity.
Qed.

(** Several chunks, one after the other: tag, size field, and contents with their padding. *)
Definition chunksBytes (o : order) (l : list (list Z * Z * list Z)) : list Z :=
  concat (map (fun '(tag, n, content) => tag ++ sampleBytes o 4 n ++ content) l).
(** [body], called after the size field, turns [s] into [s']. *)
Definition handles {S} (body : S -> list Z -> Z -> hP S) (s : S) (tag : list Z) (n : Z) (content : list Z) (s' : S) : Prop :=
  forall b p rest, 0 <= p -> zskipn p b = content ++ rest -> exists f', body s tag n (mkFile b p) = Ok (Some (s', f')) /\ fbytes f' = b.
Inductive handlesAll {S} (body : S -> list Z -> Z -> hP S) : S -> list (list Z * Z * list Z) -> S -> Prop :=
| HA_nil s : handlesAll body s [] s
| HA_cons s tag n content s' l s'' : zlen tag = 4 -> 0 <= n -> zlen content = n + n mod 2 ->
    handles body s tag n content s' -> handlesAll body s' l s'' -> handlesAll body s ((tag, n, content) :: l) s''.
Lemma handlesAll_app {S} (body : S -> list Z -> Z -> hP S) l1 : forall s s' s'' l2, handlesAll body s l1 s' -> handlesAll body s' l2 s'' -> handlesAll body s (l1 ++ l2) s''.
Proof. induction l1; intros s s' s'' l2 H1 H2; inversion H1; subst; [exact H2|]. cbn [app]. econstructor; eauto. Qed.
Lemma chunksBytes_app o l1 l2 : chunksBytes o (l1 ++ l2) = chunksBytes o l1 ++ chunksBytes o l2.
Proof. unfold chunksBytes. now rewrite map_app, concat_app. Qed.

Lemma chunkLoop_chunks {S} o wrap (body : S -> list Z -> Z -> hP S) size b rest : (forall x, 0 <= x < 2 ^ 32 -> wrap x = x) ->
  forall l s s' fuel index, handlesAll body s l s' -> 0 <= index -> index mod 2 = 0 -> index + zlen (chunksBytes o l) < size -> size <= 2 ^ 32 - 32 ->
  zskipn (index + 8) b = chunksBytes o l ++ rest ->
  chunkLoop o wrap body (length l + fuel) size index s (mkFile b (index + 8))
  = chunkLoop o wrap body fuel size (index + zlen (chunksBytes o l)) s' (mkFile b (index + zlen (chunksBytes o l) + 8))
  /\ zskipn (index + zlen (chunksBytes o l) + 8) b = rest /\ (index + zlen (chunksBytes o l)) mod 2 = 0.
Proof.
  intros Hw l. change (2 ^ 32) with 4294967296 in *. induction l as [|[[tag n] content] l IH]; intros s s' fuel index HA Hi He Hs Hsz H.
  - inversion HA; subst. cbn in *. change (zlen []) with 0. rewrite !Z.add_0_r in *. auto.
  - inversion HA as [|? ? ? ? ? ? ? Lt Hn Lc Hh HA']; subst.
    assert (Eb : chunksBytes o ((tag, n, content) :: l) = tag ++ sampleBytes o 4 n ++ content ++ chunksBytes o l).
    { unfold chunksBytes. cbn [map concat]. rewrite <- !app_assoc. reflexivity. }
    assert (El : zlen (chunksBytes o ((tag, n, content) :: l)) = 8 + n + n mod 2 + zlen (chunksBytes o l)).
    { rewrite Eb, !zlen_app, sampleBytes_zlen, Lt, Lc. change (Z.of_nat 4) with 4. lia. }
    rewrite El in *. rewrite Eb, <- !app_assoc in H. pose proof (zlen_nonneg (chunksBytes o l)) as Zl.
    assert (Hn2 : 0 <= n mod 2 < 2) by (apply Z.mod_pos_bound; lia).
    pose proof H as H'. apply skip_field in H'; [|lia]. rewrite Lt in H'. apply skip_sample in H'; [|lia]. change (Z.of_nat 4) with 4 in H'.
    replace (index + 8 + 4 + 4) with (index + 16) in H' by lia.
    destruct (Hh b (index + 16) _ ltac:(lia) H') as (f' & Hb & Hf).
    destruct (chunkLoop_step o wrap body (length l + fuel) size index s b tag n content _ _ f' ltac:(lia) He Lt Hn ltac:(change (2 ^ 32) with 4294967296; lia) Hw H Lc Hb Hf) as (E1 & E2 & E3).
    cbn [length Nat.add]. rewrite E1.
    destruct (IH _ _ fuel (index + 8 + n + n mod 2) HA' ltac:(lia) E3 ltac:(lia) Hsz E2) as (F1 & F2 & F3).
    rewrite F1. replace (index + (8 + n + n mod 2 + zlen (chunksBytes o l))) with (index + 8 + n + n mod 2 + zlen (chunksBytes o l)) by lia. auto.
Qed.

Lemma skip_field_n b p (x rest : list Z) n : zlen x = n -> 0 <= p -> zskipn p b = x ++ rest -> zskipn (p + n) b = rest.
Proof. intros <-. apply skip_field. Qed.
(** Like [hstep], also for [readU0], [readTag] and raw fields of known length. *)
Ltac hfield H n :=
  match type of H with
  | zskipn ?p ?b = ?x ++ ?rest =>
      let H' := fresh "H" in let L := fresh "L" in
      assert (L : zlen x = n);
      [ | assert (H' : zskipn (p + n) b = rest) by (apply (skip_field_n b p x rest n L); [lia|exact H]);
      first [rewrite (st_read b p x rest n _ ltac:(lia) H L) | rewrite (st_tag b p x rest _ ltac:(lia) H L)];
      cbv beta; clear H L; rename H' into H ]
  end.
Ltac hstep0 H :=
  match type of H with
  | zskipn ?p ?b = sampleBytes ?o ?n ?x ++ ?rest =>
      let H' := fresh "H" in
      assert (H' : zskipn (p + Z.of_nat n) b = rest) by (apply (skip_sample b p o n x rest); [lia|exact H]);
      rewrite (st_readU0 b p o n x rest _ ltac:(lia) H);
      cbv beta; clear H; rename H' into H
  end.

(** ** Walking through a file: which chunk headers are looked at, whatever the chunks contain *)
(** The 32-bit number at [p], 0 when the file ends before. *)
Definition word (o : order) (b : list Z) (p : Z) : Z := let d := zfirstn 4 (zskipn p b) in if zlen d =? 4 then valueOf o d else 0.
Inductive walk (o : order) (wrap : Z -> Z) (b : list Z) (size : Z) : Z -> Prop :=
| W_start : walk o wrap b size 4
| W_next i : walk o wrap b size i -> i < size -> walk o wrap b size (nextIndex wrap i (word o b (wrap (i + 8) + 4))).

(** A reader that never runs out of fuel and leaves the file as it is. *)
Definition tame {A} (p : hP A) : Prop := forall f, p f <> OutOfFuel /\ forall a f', p f = Ok (Some (a, f')) -> fbytes f' = fbytes f.
Lemma tame_bind {A C} (p : hP A) (k : A -> hP C) : tame p -> (forall a, tame (k a)) -> tame (hbind p k).
Proof.
  intros Hp Hk f. unfold hbind. destruct (Hp f) as [H1 H2]. destruct (p f) as [[[a f1]|]| | |]; cbn [rbind]; try (split; [congruence|discriminate]).
  destruct (Hk a f1) as [K1 K2]. split; [exact K1|]. intros c f' E. rewrite (K2 _ _ E). exact (H2 _ _ eq_refl).
Qed.
Lemma tame_ret {A} (a : A) : tame (hret a). Proof. intros f. split; [discriminate|]. unfold hret. intros ? ? [= _ <-]. reflexivity. Qed.
Lemma tame_fail {A} : tame (@hfail A). Proof. intros f. split; [discriminate|]. discriminate. Qed.
Lemma tame_ub {A} : tame (fun _ => UB : res (option (A * file))). Proof. intros f. split; discriminate. Qed.
Lemma tame_read n : tame (hread n). Proof. intros f. unfold hread, fread. split; [discriminate|]. intros ? ? [= _ <-]. reflexivity. Qed.
Lemma tame_seek n : tame (hseek n). Proof. intros f. split; [discriminate|]. unfold hseek. intros ? ? [= _ <-]. reflexivity. Qed.
Lemma tame_skip n : tame (hskip n). Proof. intros f. split; [discriminate|]. unfold hskip. intros ? ? [= _ <-]. reflexivity. Qed.
Lemma tame_tell : tame htell. Proof. intros f. split; [discriminate|]. unfold htell. intros ? ? [= _ <-]. reflexivity. Qed.
Lemma tame_length : tame hlength. Proof. intros f. split; [discriminate|]. unfold hlength. intros ? ? [= _ <-]. reflexivity. Qed.
Lemma tame_tryU o n : tame (tryU o n).
Proof. intros f. unfold tryU, fread. split; [destruct (_ =? _); discriminate|]. intros ? ?. destruct (_ =? _); intros [= _ <-]; reflexivity. Qed.
Lemma tame_readU o n : tame (readU o n).
Proof. intros f. unfold readU, fread. destruct (_ =? _); (split; [discriminate|]); [intros ? ? [= _ <-]; reflexivity|discriminate]. Qed.
Lemma tame_readTag : tame readTag. Proof. intros f. unfold readTag, fread. split; [discriminate|]. intros ? ? [= _ <-]. reflexivity. Qed.
Lemma tame_readU0 o n : tame (readU0 o n). Proof. unfold readU0. apply tame_bind; [apply tame_tryU|intros; apply tame_ret]. Qed.
Lemma tame_needU o n : tame (needU o n). Proof. unfold needU. apply tame_bind; [apply tame_tryU|]. intros [x|]; [apply tame_ret|apply tame_fail]. Qed.
Lemma tame_assert {B : Build} (b : bool) : tame (hassert b).
Proof. intros f. unfold hassert, rassert. destruct B, b; cbn; (split; [discriminate|]); try discriminate; intros ? ? [= _ <-]; reflexivity. Qed.
Lemma tame_lift {A} (r : res A) : r <> OutOfFuel -> tame (hlift r).
Proof. intros H f. unfold hlift. destruct r; cbn; (split; [congruence|]); try discriminate. intros ? ? [= _ <-]. reflexivity. Qed.

Lemma tryU_word o b p : 0 <= p -> exists f', readU0 o 4 (mkFile b p) = Ok (Some (word o b p, f')) /\ fbytes f' = b /\ 0 <= fpos f'.
Proof.
  intros Hp. unfold readU0, hbind, tryU, fread, word. cbn [fbytes fpos]. change (Z.of_nat 4) with 4. set (d := zfirstn 4 (zskipn p b)).
  pose proof (zlen_nonneg d). destruct (zlen d =? 4); cbn [rbind]; eexists; (split; [reflexivity|split; [reflexivity|cbn [fpos]; lia]]).
Qed.

(** The loop ends when every chunk header looked at moves it forward. *)
Lemma chunkLoop_ends {S} o wrap (body : S -> list Z -> Z -> hP S) size b :
  (forall s tag n f, fbytes f = b -> 0 <= fpos f -> body s tag n f <> OutOfFuel /\ forall a f', body s tag n f = Ok (Some (a, f')) -> fbytes f' = fbytes f) -> (forall x, 0 <= wrap x) ->
  (forall i, walk o wrap b size i -> i < size -> i < nextIndex wrap i (word o b (wrap (i + 8) + 4))) ->
  forall fuel i s, walk o wrap b size i -> size - i <= Z.of_nat fuel -> chunkLoop o wrap body fuel size i s (mkFile b (wrap (i + 8))) <> OutOfFuel.
Proof.
  intros Hb Hw Hi fuel. induction fuel as [|fuel IH]; intros i s W Hf; cbn [chunkLoop].
  - replace (i <? size) with false by lia. discriminate.
  - destruct (i <? size) eqn:E; cbn [negb]; [|discriminate].
    assert (T : exists tag f1, readTag (mkFile b (wrap (i + 8))) = Ok (Some (tag, f1)) /\ fbytes f1 = b /\ (fpos f1 = wrap (i + 8) + 4 \/ zlen b < wrap (i + 8) + 4 /\ 0 <= fpos f1 /\ zlen b <= fpos f1)).
    { unfold readTag, fread. cbn [fbytes fpos]. eexists _, _. split; [reflexivity|]. split; [reflexivity|]. cbn [fpos].
      pose proof (Hw (i + 8)). set (p := wrap (i + 8)) in *. set (d := zskipn p b).
      destruct (Z.le_gt_cases 4 (zlen d)) as [H4|H4].
      - left. rewrite zlen_firstn by lia. rewrite Z.min_l by lia. reflexivity.
      - right. assert (zlen d = Z.max 0 (zlen b - p)) as Ld by (unfold d; rewrite zlen_skipn by lia; lia). rewrite zlen_firstn by lia. pose proof (zlen_nonneg b). lia. }
    destruct T as (tag & f1 & E1 & F1 & P1). unfold hbind at 1. rewrite E1. cbn [rbind]. clear E1.
    assert (T : exists f2, readU0 o 4 f1 = Ok (Some (word o b (wrap (i + 8) + 4), f2)) /\ fbytes f2 = b /\ 0 <= fpos f2).
    { destruct f1 as [b1 p1]. cbn [fbytes fpos] in *. subst b1. pose proof (Hw (i + 8)). destruct P1 as [->|(P1 & P2 & P3)]; [apply tryU_word; lia|].
      destruct (tryU_word o b p1 P2) as (f2 & E2 & F2). exists f2. split; [|exact F2]. rewrite E2. do 3 f_equal.
      unfold word. rewrite !zskipn_all by lia. reflexivity. }
    destruct T as (f2 & E2 & F2 & P2). unfold hbind at 1. rewrite E2. cbn [rbind]. clear E2 P1.
    set (n := word o b (wrap (i + 8) + 4)) in *. destruct (Hb s tag n f2 F2 P2) as [B1 B2]. unfold hbind at 1.
    destruct (body s tag n f2) as [[[s' f3]|]| | |]; cbn [rbind]; try congruence. rewrite st_seek, (B2 _ _ eq_refl), F2.
    apply IH.
    + exact (W_next o wrap b size i W ltac:(lia)).
    + pose proof (Hi i W ltac:(lia)). fold n in H. lia.
Qed.

Lemma word_range o b p : bytes_ok b = true -> 0 <= word o b p < 2 ^ 32.
Proof.
  intros H. unfold word. destruct (zlen _ =? 4) eqn:E4; [|split; reflexivity || lia]. set (l := zfirstn 4 _) in *.
  assert (K : bytes_ok l = true).
  { unfold l. apply bytes_ok_spec. apply bytes_ok_spec in H. unfold zfirstn, zskipn. rewrite <- (firstn_skipn (Z.to_nat p) b) in H. apply Forall_app in H. destruct H as [_ H].
    rewrite <- (firstn_skipn (Z.to_nat 4) (skipn (Z.to_nat p) b)) in H. apply Forall_app in H. apply H. }
  assert (L4 : zlen l = 4) by lia. destruct o; unfold valueOf; [pose proof (be_val_range l K) as Q|pose proof (le_val_range l K) as Q]; rewrite L4 in Q; exact Q.
Qed.
(** AIFF and IFF: [index] is a size_t, so only a size field of 2^32 - 8 does not move it forward. *)
Lemma walk_u64_range o b size i : size < 2 ^ 32 -> bytes_ok b = true -> walk o u64 b size i -> 0 <= i < 2 ^ 40.
Proof.
  change (2 ^ 40) with 1099511627776. change (2 ^ 32) with 4294967296. intros Hs Hb W. induction W as [|i W IH Hi]; [lia|].
  unfold nextIndex. unfold u64, u32, uN. change (2 ^ 64) with 18446744073709551616. change (2 ^ 32) with 4294967296. set (w := word _ _ _). destruct (_ =? 0); lia.
Qed.
Lemma walk_u64_grows o b size i : size < 2 ^ 32 -> bytes_ok b = true -> walk o u64 b size i -> word o b (i + 12) <> 2 ^ 32 - 8 ->
  i < nextIndex u64 i (word o b (u64 (i + 8) + 4)).
Proof.
  intros Hs Hb W H. pose proof (walk_u64_range o b size i Hs Hb W) as I0. change (2 ^ 32) with 4294967296 in *. change (2 ^ 40) with 1099511627776 in *.
  assert (E8 : u64 (i + 8) = i + 8) by (unfold u64; apply uN_small; change (2 ^ 64) with 18446744073709551616; lia). rewrite E8.
  replace (i + 8 + 4) with (i + 12) by lia. pose proof (word_range o b (i + 12) Hb) as R0. change (2 ^ 32) with 4294967296 in R0. set (w0 := word o b (i + 12)) in *.
  unfold nextIndex, u64, u32, uN. change (2 ^ 64) with 18446744073709551616. change (2 ^ 32) with 4294967296. destruct (_ =? 0); lia.
Qed.
