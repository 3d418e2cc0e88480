(** * Reading back what was written *)
From Verif Require Import Prelude PreludeFacts FileIO Reader ReaderSpec ReaderProofs Writer WriterSpec WriterProofs WriterHistory Codecs CodecsProofs.

Lemma region_chunks (ds : list (list Z)) k bytes first : 0 <= k -> Forall (fun d => zlen d = k) ds ->
  region bytes first (zlen (concat ds)) = concat ds -> chunksOf (length ds) k (zskipn first bytes) = ds.
Proof.
  intros Hk Hd Hr. unfold region in Hr.
  rewrite <- (chunksOf_firstn (length ds) k (zskipn first bytes) (zlen (concat ds)) Hk).
  - rewrite Hr. pose proof (chunks_concat (fun x : list Z => x) k ds) as Hc. rewrite map_id in Hc. specialize (Hc ltac:(intros x Hx; rewrite Forall_forall in Hd; auto) Hk []).
    rewrite app_nil_r in Hc. exact Hc.
  - rewrite (zlen_chunk_frames ds k Hd). unfold zlen. lia.
Qed.

Lemma region_fits bytes first (d : list Z) : 0 <= first -> d <> [] -> region bytes first (zlen d) = d -> first + zlen d <= zlen bytes.
Proof.
  intros Hf Hd Hr. unfold region in Hr. apply (f_equal zlen) in Hr. pose proof (zlen_nonneg d).
  rewrite zlen_firstn, zlen_skipn in Hr by lia. destruct d; [congruence|]. rewrite zlen_cons in *. pose proof (zlen_nonneg d). lia.
Qed.

Lemma perFrame_holds {F} p bpf (enc : F -> list Z) dec (g : F -> F) l bytes first : 0 <= first <= zlen bytes -> 0 < bpf ->
  Forall (fun x => zlen (enc x) = bpf /\ dec (enc x) = g x) l ->
  region bytes first (zlen (concat (map enc l))) = concat (map enc l) ->
  holds (PerFrame p bpf dec) bytes first (zlen l) (map g l).
Proof.
  intros Hf Hb Hl Hr. unfold holds. split; [lia|]. split; [apply zlen_nonneg|]. split; [lia|].
  assert (Hd : Forall (fun d => zlen d = bpf) (map enc l)).
  { apply Forall_map. eapply Forall_impl; [|exact Hl]. cbn. tauto. }
  pose proof (zlen_chunk_frames _ _ Hd) as Hz. rewrite zlen_map in Hz. pose proof (zlen_nonneg l). split.
  - destruct l as [|x l]; [znil; lia|]. pose proof (region_fits bytes first (concat (map enc (x :: l))) ltac:(lia)) as Hfit.
    rewrite Hz in Hfit. apply Hfit.
    + intros E. rewrite E in Hz. rewrite zlen_nil, zlen_cons in Hz. pose proof (zlen_nonneg l). nia.
    + rewrite Hz in Hr. exact Hr.
  - replace (Z.to_nat (zlen l)) with (length (map enc l)) by (rewrite map_length; unfold zlen; lia).
    rewrite (region_chunks (map enc l) bpf bytes first); [|lia|exact Hd|exact Hr]. rewrite map_map.
    apply map_ext_in. intros x Hx. rewrite Forall_forall in Hl. symmetry. now apply Hl.
Qed.

(** The reconstruction of blocks encoded one after the other: [R e b r] says that a block [b] encoded in
    state [e] is reconstructed as [r]. *)
Inductive recons {F E} (encB : E -> list F -> res (list Z * E)) (R : E -> list F -> list F -> Prop) : E -> list (list F) -> list (list F) -> Prop :=
| recons_nil e : recons encB R e [] []
| recons_cons e b bs r rs d e' : R e b r -> encB e b = Ok (d, e') -> recons encB R e' bs rs -> recons encB R e (b :: bs) (r :: rs).

Section Cuts.
Context {F : Type}.
Lemma cut_length_ge n prev l : 0 < n -> forall k, (length l <= k)%nat -> zlen l <= n * zlen (@cut F k n prev l).
Proof.
  intros Hn k. revert prev l. induction k as [|k IH]; intros prev l Hk.
  - destruct l; [cbn [cut]; znil; lia|cbn in Hk; lia].
  - destruct l as [|x l]; [cbn [cut]; znil; lia|]. cbn [cut]. rewrite zlen_cons at 1.
    set (b := zfirstn n (x :: l) ++ zskipn (zlen (x :: l)) prev).
    assert (Hs : (length (zskipn n (x :: l)) <= k)%nat).
    { unfold zskipn. rewrite skipn_length. cbn [length] in *. lia. }
    specialize (IH b (zskipn n (x :: l)) Hs). rewrite zlen_skipn in IH by lia. rewrite (zlen_cons b). rewrite zlen_cons in IH. nia.
Qed.

Lemma cut_count n prev l : 0 < n -> forall k, (length l <= k)%nat -> zlen (@cut F k n prev l) = (zlen l + n - 1) / n.
Proof.
  intros Hn k. revert prev l. induction k as [|k IH]; intros prev l Hk.
  - destruct l; [cbn [cut]; znil; rewrite Z.div_small; lia|cbn in Hk; lia].
  - destruct l as [|x l]; [cbn [cut]; znil; rewrite Z.div_small; lia|]. cbn [cut].
    set (b := zfirstn n (x :: l) ++ zskipn (zlen (x :: l)) prev).
    assert (Hs : (length (zskipn n (x :: l)) <= k)%nat).
    { unfold zskipn. rewrite skipn_length. cbn [length] in *. lia. }
    rewrite zlen_cons, (IH b _ Hs), zlen_skipn by lia. pose proof (zlen_nonneg l). rewrite zlen_cons.
    destruct (Z.le_gt_cases n (1 + zlen l)) as [Hge|Hlt].
    + rewrite Z.max_r by lia. replace (1 + zlen l + n - 1) with (1 * n + (1 + zlen l - n + n - 1)) by lia. rewrite Z.div_add_l by lia. lia.
    + rewrite Z.max_l by lia. rewrite (Z.div_small (0 + n - 1)) by lia. replace (1 + zlen l + n - 1) with (1 * n + zlen l) by lia. rewrite Z.div_add_l, Z.div_small by lia. reflexivity.
Qed.

Lemma cut_good (okF : F -> Prop) n prev l k : 0 < n -> zlen prev = n -> Forall okF prev -> Forall okF l -> Forall (fun b => zlen b = n /\ Forall okF b) (@cut F k n prev l).
Proof.
  intros Hn. revert prev l. induction k as [|k IH]; intros prev l Hp Fp Fl; [constructor|].
  destruct l as [|x l]; [constructor|]. cbn [cut]. set (l' := x :: l) in *. set (b := zfirstn n l' ++ zskipn (zlen l') prev).
  assert (Hb : zlen b = n /\ Forall okF b).
  { pose proof (zlen_nonneg l'). split; [unfold b; rewrite zlen_app, zlen_firstn, zlen_skipn by lia; lia|].
    apply Forall_app. split; [now apply Forall_firstn|now apply Forall_skipn]. }
  constructor; [exact Hb|]. apply IH; [apply Hb|apply Hb|now apply Forall_skipn].
Qed.

End Cuts.

Section BlocksBack.
Context {F E : Type} (fpp bpp : Z) (encB : E -> list F -> res (list Z * E)) (decB : list Z -> res (list F)).
Context (okF : F -> Prop) (okE : E -> Prop) (R : E -> list F -> list F -> Prop).
Hypothesis Hlaw : lawful (WBlocks fpp bpp encB) okF okE.
Hypothesis Hdec : forall e b d e', okE e -> zlen b = fpp -> Forall okF b -> encB e b = Ok (d, e') ->
  exists r, decB d = Ok r /\ zlen r = fpp /\ R e b r.

Lemma encode_decode_blocks blocks : forall e, okE e -> Forall (fun b => zlen b = fpp /\ Forall okF b) blocks ->
  exists ds recs, encodeAll encB e blocks = Ok (concat ds) /\ Forall (fun d => zlen d = bpp) ds /\ length ds = length blocks /\
    rmapM decB ds = Ok recs /\ Forall (fun r => zlen r = fpp) recs /\ recons encB R e blocks recs.
Proof.
  induction blocks as [|b blocks IH]; intros e He Hb.
  - exists [], []. repeat split; constructor.
  - apply Forall_cons_iff in Hb as [[Lb Fb] Hb']. destruct Hlaw as (_ & _ & Henc). destruct (Henc e b He Lb Fb) as (d & e' & E1 & Ld & He').
    destruct (Hdec e b d e' He Lb Fb E1) as (r & Dr & Lr & HR).
    destruct (IH e' He' Hb') as (ds & recs & E2 & F2 & L2 & M2 & G2 & R2).
    exists (d :: ds), (r :: recs). cbn [encodeAll rmapM]. rewrite E1, Dr. cbn [rbind]. rewrite E2, M2. cbn [rbind concat].
    split; [reflexivity|]. split; [now constructor|]. split; [cbn [length]; lia|]. split; [reflexivity|]. split; [now constructor|].
    econstructor; eauto.
Qed.

Lemma blocks_holds junk e0 l bytes first d : 0 <= first <= zlen bytes -> okE e0 -> okF junk -> Forall okF l ->
  audio (WBlocks fpp bpp encB) junk e0 l = Ok d -> region bytes first (zlen d) = d ->
  exists recs, recons encB R e0 (cut (length l) fpp (zrepeat junk fpp) l) recs /\
    holds (Blocks fpp bpp decB) bytes first (zlen l) (zfirstn (zlen l) (concat recs)).
Proof.
  intros Hf He Hj Hl Ha Hr. pose proof Hlaw as (B1 & B2 & _). unfold audio in Ha.
  destruct (encode_decode_blocks (cut (length l) fpp (zrepeat junk fpp) l) e0 He) as (ds & recs & E1 & F1 & L1 & M1 & G1 & R1).
  { apply cut_good; auto; [apply zlen_repeat; lia|]. apply Forall_forall. intros x Hx. apply repeat_spec in Hx. now subst. }
  rewrite E1 in Ha. injection Ha as <-. exists recs. split; [exact R1|]. unfold holds. split; [lia|]. split; [apply zlen_nonneg|].
  split; [lia|]. split; [lia|]. exists (length ds), recs.
  pose proof (zlen_chunk_frames _ _ F1) as Hz.
  assert (Lc : zlen ds = zlen (cut (length l) fpp (zrepeat junk fpp) l)) by (unfold zlen; lia).
  pose proof (cut_length_ge fpp (zrepeat junk fpp) l B1 (length l) ltac:(lia)) as Hge. rewrite <- Lc in Hge.
  split.
  - destruct ds as [|d0 ds]; [cbn [length]; lia|].
    pose proof (region_fits bytes first (concat (d0 :: ds)) ltac:(lia)) as Hfit.
    rewrite Hz in Hfit. fold (zlen (d0 :: ds)). apply Hfit.
    + intros E0. rewrite E0 in Hz. rewrite zlen_nil, zlen_cons in Hz. pose proof (zlen_nonneg ds). nia.
    + rewrite Hz in Hr. exact Hr.
  - split; [rewrite (region_chunks ds bpp bytes first); [exact M1|lia|exact F1|exact Hr]|]. split; [exact G1|].
    split; [fold (zlen ds); lia|reflexivity].
Qed.
End BlocksBack.
