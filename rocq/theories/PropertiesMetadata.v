(** * C43-C46: miscellaneous chunks, markers, loops and instrument parameters of an open file

    Everything is stated through the API: ids are known when the id query lists them, values are what the getters
    return. *)
From Verif Require Import Prelude PreludeFacts Metadata MetadataProofs.

Definition markKnown (h : handle) (t m : Z) : Prop := exists ids, afGetMarkIDs h t = Some ids /\ In m ids.
Definition loopKnown (h : handle) (i l : Z) : Prop := exists ids, afGetLoopIDs h i = Some ids /\ In l ids.

Lemma markKnown_spec h t m : markKnown h t m <-> exists k, getMarker h t m = Some k.
Proof.
  unfold markKnown, afGetMarkIDs, getMarker. destruct (lookup tk_id t (h_tracks h)) as [tr|]; cbn.
  - rewrite (lookup_In mk_id m (tk_markers tr)). split; [intros (ids & E & H); injection E as <-; exact H|eauto].
  - split; [intros (ids & E & _); discriminate|intros [k E]; discriminate].
Qed.
Lemma loopKnown_spec h i l : loopKnown h i l <-> exists k, getLoop h i l false = Some k.
Proof.
  unfold loopKnown, afGetLoopIDs, getLoop. cbn [andb]. destruct (lookup in_id i (h_insts h)) as [ins|]; cbn.
  - rewrite (lookup_In lp_id l (in_loops ins)). split; [intros (ids & E & H); injection E as <-; exact H|eauto].
  - split; [intros (ids & E & _); discriminate|intros [k E]; discriminate].
Qed.

(** ** C44: markers *)

Lemma getMarker_set h t m p t' m' : h_writing h = true ->
  getMarker (afSetMarkPosition h t m p) t' m' =
  if (t' =? t) && (m' =? m)
  then option_map (fun k => Marker (mk_id k) (mk_name k) (mk_comment k) (Z.max 0 p)) (getMarker h t m)
  else getMarker h t' m'.
Proof.
  intros Hw. unfold afSetMarkPosition, getMarker. rewrite Hw. cbn [h_tracks]. rewrite lookup_update by reflexivity.
  replace (if p <? 0 then 0 else p) with (Z.max 0 p) by (destruct (p <? 0) eqn:E; lia).
  destruct (t' =? t) eqn:Et; cbn [andb]; [|reflexivity]. replace t' with t by lia.
  destruct (lookup tk_id t (h_tracks h)) as [tr|]; cbn [option_map]; [|destruct (m' =? m); reflexivity].
  cbn [tk_markers]. rewrite lookup_update by reflexivity. destruct (m' =? m); reflexivity.
Qed.

(** Setting the position of a marker that the file lists changes what the next query of it returns, and nothing else
    that can be queried. *)
Theorem C44_set_then_get : forall h t m p, h_writing h = true -> markKnown h t m ->
  let h' := afSetMarkPosition h t m p in
  afGetMarkPosition h' t m = Z.max 0 p /\
  (forall t' m', (t', m') <> (t, m) -> afGetMarkPosition h' t' m' = afGetMarkPosition h t' m') /\
  (forall t' m', afGetMarkName h' t' m' = afGetMarkName h t' m' /\ afGetMarkComment h' t' m' = afGetMarkComment h t' m') /\
  (forall t', afGetMarkIDs h' t' = afGetMarkIDs h t') /\
  h_insts h' = h_insts h /\ h_misc h' = h_misc h /\ h_writing h' = h_writing h /\ h_format h' = h_format h.
Proof.
  intros h t m p Hw Hk h'. apply markKnown_spec in Hk as [k Hk].
  assert (G : forall t' m', getMarker h' t' m' = if (t' =? t) && (m' =? m) then Some (Marker (mk_id k) (mk_name k) (mk_comment k) (Z.max 0 p)) else getMarker h t' m').
  { intros t' m'. unfold h'. rewrite getMarker_set by exact Hw. rewrite Hk. reflexivity. }
  split; [|split; [|split; [|split]]].
  - unfold afGetMarkPosition. rewrite G, !Z.eqb_refl. reflexivity.
  - intros t' m' Hne. unfold afGetMarkPosition. rewrite G. destruct ((t' =? t) && (m' =? m)) eqn:E; [|reflexivity].
    exfalso. apply Hne. f_equal; lia.
  - intros t' m'. unfold afGetMarkName, afGetMarkComment. rewrite G. destruct ((t' =? t) && (m' =? m)) eqn:E; [|split; reflexivity].
    replace t' with t by lia. replace m' with m by lia. rewrite Hk. split; reflexivity.
  - intros t'. unfold afGetMarkIDs, h', afSetMarkPosition. rewrite Hw. cbn [h_tracks]. rewrite lookup_update by reflexivity.
    destruct (t' =? t) eqn:E; [|reflexivity]. replace t' with t by lia. destruct (lookup tk_id t (h_tracks h)); [|reflexivity].
    cbn. f_equal. apply map_key_update. reflexivity.
  - unfold h', afSetMarkPosition. rewrite Hw. repeat split; reflexivity || (cbn; auto).
Qed.
Print Assumptions C44_set_then_get.

(** Files opened for reading, tracks and markers that do not exist: refused without effect; the query gives 0. *)
Theorem C44_refused : forall h t m p, (h_writing h = false \/ ~ markKnown h t m) -> afSetMarkPosition h t m p = h.
Proof.
  intros h t m p H. unfold afSetMarkPosition. destruct (h_writing h) eqn:Hw; [|reflexivity]. destruct H as [H|H]; [discriminate|].
  destruct h as [w f tr ins mi]. cbn in *. f_equal; [auto|]. apply update_id. intros a Ha. destruct a as [id ms]. cbn in *. f_equal.
  apply update_none. destruct (lookup mk_id m ms) eqn:E; [|reflexivity]. exfalso. apply H, markKnown_spec. unfold getMarker. cbn. rewrite Ha. cbn. eauto.
Qed.
Print Assumptions C44_refused.
Theorem C44_unknown_marker_is_zero : forall h t m, ~ markKnown h t m -> afGetMarkPosition h t m = 0.
Proof.
  intros h t m H. unfold afGetMarkPosition. destruct (getMarker h t m) eqn:E; [|reflexivity]. exfalso. apply H, markKnown_spec. eauto.
Qed.
Print Assumptions C44_unknown_marker_is_zero.

(** ** Loops *)
Definition loopFields (h : handle) (i l : Z) : Z * Z * Z * Z * Z :=
  (afGetLoopMode h i l, afGetLoopCount h i l, afGetLoopStart h i l, afGetLoopEnd h i l, afGetLoopTrack h i l).

Lemma getLoop_with h i l f i' l' : (forall k, lp_id (f k) = lp_id k) ->
  getLoop (withLoop h i l f) i' l' false = if (i' =? i) && (l' =? l) then option_map f (getLoop h i l false) else getLoop h i' l' false.
Proof.
  intros Hf. unfold getLoop, withLoop. cbn [andb h_insts]. rewrite lookup_update by reflexivity.
  destruct (i' =? i) eqn:Ei; cbn [andb]; [|reflexivity]. replace i' with i by lia.
  destruct (lookup in_id i (h_insts h)) as [ins|]; cbn [option_map]; [|destruct (l' =? l); reflexivity].
  cbn [in_loops]. rewrite lookup_update by exact Hf. destruct (l' =? l); reflexivity.
Qed.
Lemma loopIds_with h i l f i' : (forall k, lp_id (f k) = lp_id k) -> afGetLoopIDs (withLoop h i l f) i' = afGetLoopIDs h i'.
Proof.
  intros Hf. unfold afGetLoopIDs, withLoop. cbn [h_insts]. rewrite lookup_update by reflexivity.
  destruct (i' =? i) eqn:Ei; [|reflexivity]. replace i' with i by lia. destruct (lookup in_id i (h_insts h)); [|reflexivity].
  cbn. f_equal. apply map_key_update, Hf.
Qed.
Lemma instIds_with h i l f : afGetInstIDs (withLoop h i l f) = afGetInstIDs h.
Proof. unfold afGetInstIDs, withLoop. cbn [h_insts]. apply map_key_update. reflexivity. Qed.
Lemma obs_with h i l f i' p : obs (withLoop h i l f) i' p = obs h i' p.
Proof.
  unfold obs, withLoop. cbn [h_insts h_format]. rewrite lookup_update by reflexivity. destruct (i' =? i) eqn:Ei; [|reflexivity].
  replace i' with i by lia. destruct (lookup in_id i (h_insts h)); reflexivity.
Qed.
Lemma wfh_with h i l f : wfh h -> wfh (withLoop h i l f).
Proof. intros W. unfold wfh, withLoop in *. cbn [h_insts h_format]. apply Forall_update; [|exact W]. intros a Ha. exact Ha. Qed.
Lemma getLoop_true h i l : getLoop h i l true = if h_writing h then getLoop h i l false else None.
Proof. unfold getLoop. destruct (h_writing h); reflexivity. Qed.

(** The effect a call has on the five fields of loop [l] of instrument [i], given whether the file is open for writing
    and has the loop. *)
Definition loopCall (c : mcall) (i l : Z) (f : Z * Z * Z * Z * Z) : Z * Z * Z * Z * Z :=
  let '(md, ct, st, en, tr) := f in
  match c with
  | SetLoopMode i' l' v => if (i' =? i) && (l' =? l) && (0 <=? v) && (v <=? 2) then (v, ct, st, en, tr) else f
  | SetLoopCount i' l' v => if (i' =? i) && (l' =? l) && (1 <=? v) then (md, v, st, en, tr) else f
  | SetLoopStart i' l' v => if (i' =? i) && (l' =? l) then (md, ct, v, en, tr) else f
  | SetLoopEnd i' l' v => if (i' =? i) && (l' =? l) then (md, ct, st, v, tr) else f
  | SetLoopTrack i' l' v => if (i' =? i) && (l' =? l) then (md, ct, st, en, v) else f
  | _ => f
  end.
Definition loopAfter (h : handle) (c : mcall) (i l : Z) (f : Z * Z * Z * Z * Z) :=
  if h_writing h then if (match getLoop h i l false with Some _ => true | None => false end) then loopCall c i l f else f else f.

(** calls that leave the loops of all instruments alone *)
Lemma fields_same h h' i l : getLoop h' i l false = getLoop h i l false -> loopFields h' i l = loopFields h i l.
Proof. intros E. unfold loopFields, afGetLoopMode, afGetLoopCount, afGetLoopStart, afGetLoopEnd, afGetLoopTrack. rewrite E. reflexivity. Qed.
Lemma getLoop_values h h' i l : sameButValues h h' -> getLoop h' i l false = getLoop h i l false.
Proof.
  intros (_ & _ & _ & _ & _ & S). unfold getLoop. cbn [andb]. specialize (S i).
  destruct (lookup in_id i (h_insts h')), (lookup in_id i (h_insts h)); cbn in S; try discriminate; try reflexivity.
  injection S as ->. reflexivity.
Qed.
Lemma insts_set h t m p : h_insts (afSetMarkPosition h t m p) = h_insts h.
Proof. unfold afSetMarkPosition. destruct (h_writing h); reflexivity. Qed.

Lemma setInst_spec {B : Build} h i l n h' : wfh h -> afSetInstParams h i l n = Ok h' -> sameButValues h h' /\ wfh h'.
Proof.
  intros W. unfold afSetInstParams. destruct (h_writing h); cbn [negb]; [|intros H; injection H as <-; split; [apply sameButValues_refl|exact W]].
  destruct (lookup in_id i (h_insts h)) as [ins|] eqn:E; [|intros H; injection H as <-; split; [apply sameButValues_refl|exact W]].
  destruct l as [items|].
  - cbn [AUpvgetmaxitems rbind]. cbv zeta. intros H. pose proof (zlen_nonneg items).
    destruct (setLoop_spec items i (Z.to_nat (if zlen items <? n then zlen items else n)) h 0 W (ex_intro _ ins E) ltac:(lia)) as (h2 & E2 & W2 & S2 & _).
    { destruct (zlen items <? n) eqn:En; lia. }
    assert (h2 = h') by congruence. subst h2. auto.
  - cbn [AUpvgetmaxitems]. unfold rassert. destruct asserting; cbn [rbind]; [discriminate|]. cbv zeta.
    intros H. assert (En : Z.to_nat (if BAD_PVLIST <? n then BAD_PVLIST else n) = O) by (unfold BAD_PVLIST; destruct (-5 <? n) eqn:En; lia).
    rewrite En in H. injection H as <-. split; [apply sameButValues_refl|exact W].
Qed.
Lemma setLong_as_list {B : Build} h i p v : afSetInstParamLong h i p v = afSetInstParams h i (Some [PvItem PVTYPE_LONG p v]) 1.
Proof. reflexivity. Qed.

Lemma insts_misc h id m : h_insts (withMisc h id m) = h_insts h. Proof. reflexivity. Qed.

(** the calls on miscellaneous chunks change nothing but the chunks *)
Definition sameButMisc (h h' : handle) : Prop :=
  h_writing h' = h_writing h /\ h_format h' = h_format h /\ h_tracks h' = h_tracks h /\ h_insts h' = h_insts h.
Lemma misc_same {B : Build} h c h' : match c with WriteMisc _ _ | ReadMisc _ _ | SeekMisc _ _ => True | _ => False end ->
  mstep h c = Ok h' -> sameButMisc h h'.
Proof.
  intros Hc. destruct c; try contradiction; cbn [mstep].
  - intros H. apply rbind_Ok in H as ([h1 r] & H & E). injection E as <-. revert H. unfold afWriteMisc.
    destruct (negb (h_writing h)); [intros H; injection H as <- <-; repeat split|].
    destruct (lookup mi_id id (h_misc h)) as [m|]; [|intros H; injection H as <- <-; repeat split].
    destruct (zlen data <=? 0); [intros H; injection H as <- <-; repeat split|].
    intros H. apply rbind_Ok in H as (b & _ & H). destruct (_ && _); [injection H as <- <-; repeat split|].
    apply rbind_Ok in H as (room & _ & H). apply rbind_Ok in H as (b' & _ & H). apply rbind_Ok in H as (p & _ & H).
    injection H as <- <-. repeat split.
  - intros H. apply rbind_Ok in H as ([h1 r] & H & E). injection E as <-. revert H. unfold afReadMisc.
    destruct (h_writing h) eqn:Hw; [intros H; injection H as <- <-; repeat split; auto|].
    destruct (lookup mi_id id (h_misc h)) as [m|]; [|intros H; injection H as <- <-; repeat split; auto].
    destruct (n <=? 0); [intros H; injection H as <- <-; repeat split; auto|].
    intros H. apply rbind_Ok in H as (room & _ & H). apply rbind_Ok in H as (d & _ & H). apply rbind_Ok in H as (p & _ & H).
    injection H as <- <-. repeat split; auto.
  - intros H. injection H as <-. unfold afSeekMisc. destruct (lookup mi_id id (h_misc h)) as [m|]; [|repeat split].
    destruct (mi_size m <=? o); repeat split.
Qed.

Lemma mode_cond v : negb (v =? 0) && negb (v =? 1) && negb (v =? 2) = negb ((0 <=? v) && (v <=? 2)).
Proof. lia. Qed.

Lemma setMark_writing h t m p : h_writing (afSetMarkPosition h t m p) = h_writing h.
Proof. unfold afSetMarkPosition. destruct (h_writing h) eqn:E; [reflexivity|exact E]. Qed.

Lemma mstep_loop {B : Build} h c h' : wfh h -> mstep h c = Ok h' ->
  h_writing h' = h_writing h /\ (forall i, afGetLoopIDs h' i = afGetLoopIDs h i) /\ afGetInstIDs h' = afGetInstIDs h /\ wfh h' /\ h_format h' = h_format h /\
  forall i l, loopFields h' i l = loopAfter h c i l (loopFields h i l).
Proof.
  intros W. 
  assert (Same : forall h1, h_writing h1 = h_writing h -> h_insts h1 = h_insts h -> h_format h1 = h_format h ->
     (forall i l f, loopCall c i l f = f) ->
     h_writing h1 = h_writing h /\ (forall i, afGetLoopIDs h1 i = afGetLoopIDs h i) /\ afGetInstIDs h1 = afGetInstIDs h /\ wfh h1 /\ h_format h1 = h_format h /\
     forall i l, loopFields h1 i l = loopAfter h c i l (loopFields h i l)).
  { intros h1 H1 H2 H3 H4. split; [exact H1|]. split; [intros; unfold afGetLoopIDs; rewrite H2; reflexivity|]. split; [unfold afGetInstIDs; rewrite H2; reflexivity|].
    split; [unfold wfh in *; rewrite H2, H3; exact W|]. split; [exact H3|]. intros i l. unfold loopAfter. rewrite H4.
    rewrite (fields_same h h1 i l) by (unfold getLoop; rewrite H2; reflexivity). destruct (h_writing h), (match getLoop h i l false with Some _ => true | None => false end); reflexivity. }
  assert (Values : forall h1, sameButValues h h1 -> wfh h1 -> (forall i l f, loopCall c i l f = f) ->
     h_writing h1 = h_writing h /\ (forall i, afGetLoopIDs h1 i = afGetLoopIDs h i) /\ afGetInstIDs h1 = afGetInstIDs h /\ wfh h1 /\ h_format h1 = h_format h /\
     forall i l, loopFields h1 i l = loopAfter h c i l (loopFields h i l)).
  { intros h1 S W1 H4. pose proof S as (S1 & S2 & S3 & S4 & S5 & S6). split; [exact S1|]. split.
    { intros i. unfold afGetLoopIDs. specialize (S6 i). destruct (lookup in_id i (h_insts h1)), (lookup in_id i (h_insts h)); cbn in *; congruence. }
    split; [exact S5|]. split; [exact W1|]. split; [exact S2|]. intros i l. unfold loopAfter. rewrite H4, (fields_same h h1 i l) by (apply getLoop_values, S).
    destruct (h_writing h), (match getLoop h i l false with Some _ => true | None => false end); reflexivity. }
  assert (Loop1 : forall i0 l0 f, (forall k, lp_id (f k) = lp_id k) -> h_writing h = true ->
     (forall i l, loopFields (withLoop h i0 l0 f) i l = loopAfter h c i l (loopFields h i l)) ->
     h_writing (withLoop h i0 l0 f) = h_writing h /\ (forall i, afGetLoopIDs (withLoop h i0 l0 f) i = afGetLoopIDs h i) /\
     afGetInstIDs (withLoop h i0 l0 f) = afGetInstIDs h /\ wfh (withLoop h i0 l0 f) /\ h_format (withLoop h i0 l0 f) = h_format h /\
     forall i l, loopFields (withLoop h i0 l0 f) i l = loopAfter h c i l (loopFields h i l)).
  { intros i0 l0 f Hf Hw E. split; [reflexivity|]. split; [intros; apply loopIds_with, Hf|]. split; [apply instIds_with|]. split; [apply wfh_with, W|]. split; [reflexivity|exact E]. }
  assert (Gone : forall i0 l0, getLoop h i0 l0 true = None -> (forall i l f, (i0 =? i) && (l0 =? l) = false -> loopCall c i l f = f) ->
     h_writing h = h_writing h /\ (forall i, afGetLoopIDs h i = afGetLoopIDs h i) /\ afGetInstIDs h = afGetInstIDs h /\ wfh h /\ h_format h = h_format h /\
     forall i l, loopFields h i l = loopAfter h c i l (loopFields h i l)).
  { intros i0 l0 Hn Hc. repeat split; try exact W. intros i l. unfold loopAfter. rewrite getLoop_true in Hn. destruct (h_writing h); [|reflexivity].
    destruct (getLoop h i l false) eqn:G; [|reflexivity]. rewrite Hc; [reflexivity|].
    destruct ((i0 =? i) && (l0 =? l)) eqn:E; [|reflexivity]. exfalso. replace i with i0 in G by lia. replace l with l0 in G by lia. congruence. }
  assert (Fields : forall i0 l0 f k g, h_writing h = true -> getLoop h i0 l0 false = Some k -> (forall x, lp_id (f x) = lp_id x) ->
     g = (lp_mode (f k), lp_count (f k), lp_begin (f k), lp_end (f k), lp_track (f k)) ->
     (forall i l ff, loopCall c i l ff = if (i0 =? i) && (l0 =? l) then loopCall c i0 l0 ff else ff) ->
     loopCall c i0 l0 (lp_mode k, lp_count k, lp_begin k, lp_end k, lp_track k) = g ->
     forall i l, loopFields (withLoop h i0 l0 f) i l = loopAfter h c i l (loopFields h i l)).
  { intros i0 l0 f k g Hw Hk Hf Hg Hc Hcg i l. unfold loopAfter. rewrite Hw, Hc.
    assert (E : (i0 =? i) && (l0 =? l) = (i =? i0) && (l =? l0)) by (rewrite (Z.eqb_sym i), (Z.eqb_sym l); reflexivity). rewrite E.
    destruct ((i =? i0) && (l =? l0)) eqn:Eq.
    - replace i with i0 by lia. replace l with l0 by lia. rewrite Hk.
      unfold loopFields, afGetLoopMode, afGetLoopCount, afGetLoopStart, afGetLoopEnd, afGetLoopTrack.
      rewrite getLoop_with, !Z.eqb_refl, Hk by exact Hf. cbn [andb option_map]. rewrite Hcg. symmetry. exact Hg.
    - rewrite (fields_same h (withLoop h i0 l0 f) i l) by (rewrite getLoop_with by exact Hf; rewrite Eq; reflexivity).
      destruct (getLoop h i l false); reflexivity. }
  destruct c as [t m p|i l v|i l v|i l v|i l v|i l v|i l v|i l v|i l n|i p v|id data|id n|id o]; cbn [mstep]; intros H.
  - injection H as <-. apply Same; [apply setMark_writing|apply insts_set|unfold afSetMarkPosition; destruct (h_writing h); reflexivity|intros i l [[[[? ?] ?] ?] ?]; reflexivity].
  - injection H as <-. unfold afSetLoopMode. destruct (getLoop h i l true) as [k|] eqn:G.
    + rewrite getLoop_true in G. destruct (h_writing h) eqn:Hw; [|discriminate]. rewrite mode_cond. destruct ((0 <=? v) && (v <=? 2)) eqn:E; cbn [negb].
      * apply Loop1; [reflexivity|reflexivity|]. apply (Fields i l _ k (v, lp_count k, lp_begin k, lp_end k, lp_track k)); [reflexivity|exact G|reflexivity|reflexivity| |].
        -- intros i' l' [[[[? ?] ?] ?] ?]. cbn. rewrite !Z.eqb_refl. rewrite <- !andb_assoc, E, !andb_true_r. cbn. reflexivity.
        -- cbn. rewrite !Z.eqb_refl. cbn [andb]. rewrite E. reflexivity.
      * apply Same; [exact Hw|reflexivity|reflexivity|]. intros i' l' [[[[? ?] ?] ?] ?]. cbn. rewrite <- !andb_assoc, E, !andb_false_r. reflexivity.
    + apply (Gone i l G). intros i' l' [[[[? ?] ?] ?] ?] E. cbn. rewrite E. reflexivity.
  - injection H as <-. unfold afSetLoopCount. destruct (getLoop h i l true) as [k|] eqn:G.
    + rewrite getLoop_true in G. destruct (h_writing h) eqn:Hw; [|discriminate]. destruct (v <? 1) eqn:E; cbn [fst].
      * apply Same; [exact Hw|reflexivity|reflexivity|]. intros i' l' [[[[? ?] ?] ?] ?]. cbn. replace (1 <=? v) with false by lia. rewrite andb_false_r. reflexivity.
      * apply Loop1; [reflexivity|reflexivity|]. apply (Fields i l _ k (lp_mode k, v, lp_begin k, lp_end k, lp_track k)); [reflexivity|exact G|reflexivity|reflexivity| |].
        -- intros i' l' [[[[? ?] ?] ?] ?]. cbn. rewrite !Z.eqb_refl. replace (1 <=? v) with true by lia. rewrite !andb_true_r. reflexivity.
        -- cbn. rewrite !Z.eqb_refl. replace (1 <=? v) with true by lia. reflexivity.
    + apply (Gone i l G). intros i' l' [[[[? ?] ?] ?] ?] E. cbn. rewrite E. reflexivity.
  - injection H as <-. unfold afSetLoopStart. destruct (getLoop h i l true) as [k|] eqn:G.
    + rewrite getLoop_true in G. destruct (h_writing h) eqn:Hw; [|discriminate].
      apply Loop1; [reflexivity|reflexivity|]. apply (Fields i l _ k (lp_mode k, lp_count k, v, lp_end k, lp_track k)); [reflexivity|exact G|reflexivity|reflexivity| |].
      -- intros i' l' [[[[? ?] ?] ?] ?]. cbn. rewrite !Z.eqb_refl. reflexivity.
      -- cbn. rewrite !Z.eqb_refl. reflexivity.
    + apply (Gone i l G). intros i' l' [[[[? ?] ?] ?] ?] E. cbn. rewrite E. reflexivity.
  - injection H as <-. unfold afSetLoopEnd. destruct (getLoop h i l true) as [k|] eqn:G.
    + rewrite getLoop_true in G. destruct (h_writing h) eqn:Hw; [|discriminate].
      apply Loop1; [reflexivity|reflexivity|]. apply (Fields i l _ k (lp_mode k, lp_count k, lp_begin k, v, lp_track k)); [reflexivity|exact G|reflexivity|reflexivity| |].
      -- intros i' l' [[[[? ?] ?] ?] ?]. cbn. rewrite !Z.eqb_refl. reflexivity.
      -- cbn. rewrite !Z.eqb_refl. reflexivity.
    + apply (Gone i l G). intros i' l' [[[[? ?] ?] ?] ?] E. cbn. rewrite E. reflexivity.
  - injection H as <-. unfold afSetLoopTrack. destruct (getLoop h i l true) as [k|] eqn:G.
    + rewrite getLoop_true in G. destruct (h_writing h) eqn:Hw; [|discriminate].
      apply Loop1; [reflexivity|reflexivity|]. apply (Fields i l _ k (lp_mode k, lp_count k, lp_begin k, lp_end k, v)); [reflexivity|exact G|reflexivity|reflexivity| |].
      -- intros i' l' [[[[? ?] ?] ?] ?]. cbn. rewrite !Z.eqb_refl. reflexivity.
      -- cbn. rewrite !Z.eqb_refl. reflexivity.
    + apply (Gone i l G). intros i' l' [[[[? ?] ?] ?] ?] E. cbn. rewrite E. reflexivity.
  - injection H as <-. unfold afSetLoopStartFrame. destruct (getLoop h i l true) as [k|]; [destruct (v <? 0)|]; cbn [fst];
      apply Same; rewrite ?setMark_writing, ?insts_set; try reflexivity; try (intros i' l' [[[[? ?] ?] ?] ?]; reflexivity); unfold afSetMarkPosition; destruct (h_writing h); reflexivity.
  - injection H as <-. unfold afSetLoopEndFrame. destruct (getLoop h i l true) as [k|]; [destruct (v <? 0)|]; cbn [fst];
      apply Same; rewrite ?setMark_writing, ?insts_set; try reflexivity; try (intros i' l' [[[[? ?] ?] ?] ?]; reflexivity); unfold afSetMarkPosition; destruct (h_writing h); reflexivity.
  - destruct (setInst_spec h i l n h' W H) as [S W']. apply Values; [exact S|exact W'|intros i' l' [[[[? ?] ?] ?] ?]; reflexivity].
  - rewrite setLong_as_list in H. destruct (setInst_spec h i _ 1 h' W H) as [S W']. apply Values; [exact S|exact W'|intros i' l' [[[[? ?] ?] ?] ?]; reflexivity].
  - destruct (misc_same h (WriteMisc id data) h' I H) as (S1 & S2 & S3 & S4). apply Same; auto. intros i' l' [[[[? ?] ?] ?] ?]; reflexivity.
  - destruct (misc_same h (ReadMisc id n) h' I H) as (S1 & S2 & S3 & S4). apply Same; auto. intros i' l' [[[[? ?] ?] ?] ?]; reflexivity.
  - destruct (misc_same h (SeekMisc id o) h' I H) as (S1 & S2 & S3 & S4). apply Same; auto. intros i' l' [[[[? ?] ?] ?] ?]; reflexivity.
Qed.

(** ** C45: the loop fields after a history are those its setters leave, one after the other *)

(** the five fields the API shows for a loop the file lists, after the calls [cs] *)
Definition loopSpec (cs : list mcall) (i l : Z) (f : Z * Z * Z * Z * Z) : Z * Z * Z * Z * Z :=
  fold_left (fun f c => loopCall c i l f) cs f.

Theorem C45_loop_fields : forall (B : Build) cs h h' i l, wfh h -> h_writing h = true -> loopKnown h i l ->
  mrun h cs = Ok h' -> loopFields h' i l = loopSpec cs i l (loopFields h i l).
Proof.
  intros B cs. induction cs as [|c cs IH]; intros h h' i l W Hw Hk H; [injection H as <-; reflexivity|].
  cbn [mrun] in H. apply rbind_Ok in H as (h1 & H1 & H).
  destruct (mstep_loop h c h1 W H1) as (A1 & A2 & A3 & A4 & A5 & A6).
  rewrite (IH h1 h' i l A4) by (try exact H; try congruence; destruct Hk as (ids & E & Hin); exists ids; rewrite A2; auto).
  rewrite A6. unfold loopAfter. rewrite Hw. apply loopKnown_spec in Hk as [k ->]. reflexivity.
Qed.
Print Assumptions C45_loop_fields.

(** The ids never change, and on a file opened for reading, or for a loop or instrument that does not exist, the
    setters have no effect and the queries of unknown loops give -1. *)
Theorem C45_refused : forall (B : Build) cs h h' i l, wfh h -> (h_writing h = false \/ ~ loopKnown h i l) ->
  mrun h cs = Ok h' ->
  loopFields h' i l = loopFields h i l /\ (~ loopKnown h i l -> loopFields h' i l = (-1, -1, -1, -1, -1)) /\
  (forall i', afGetLoopIDs h' i' = afGetLoopIDs h i') /\ afGetInstIDs h' = afGetInstIDs h.
Proof.
  intros B cs. assert (Un : forall h i l, ~ loopKnown h i l -> loopFields h i l = (-1, -1, -1, -1, -1)).
  { intros h i l N. unfold loopFields, afGetLoopMode, afGetLoopCount, afGetLoopStart, afGetLoopEnd, afGetLoopTrack.
    destruct (getLoop h i l false) eqn:G; [|reflexivity]. exfalso. apply N, loopKnown_spec. eauto. }
  induction cs as [|c cs IH]; intros h h' i l W Hr H; [injection H as <-; auto|].
  cbn [mrun] in H. apply rbind_Ok in H as (h1 & H1 & H).
  destruct (mstep_loop h c h1 W H1) as (A1 & A2 & A3 & A4 & A5 & A6).
  assert (K : loopKnown h1 i l <-> loopKnown h i l) by (unfold loopKnown; rewrite A2; reflexivity).
  destruct (IH h1 h' i l A4) as (I1 & I2 & I3 & I4); [destruct Hr as [Hr|Hr]; [left; congruence|right; tauto]|exact H|].
  split; [|split; [|split]].
  - rewrite I1, A6. unfold loopAfter. destruct (h_writing h) eqn:Hw; [|reflexivity].
    destruct (getLoop h i l false) eqn:G; [|reflexivity]. exfalso. destruct Hr as [Hr|Hr]; [discriminate|]. apply Hr, loopKnown_spec. eauto.
  - intros N. apply I2. tauto.
  - intros i'. rewrite I3. apply A2.
  - congruence.
Qed.
Print Assumptions C45_refused.

(** The frame setters and getters go through the loop's markers. *)
Theorem C45_loop_frames : forall h i l v, h_writing h = true -> loopKnown h i l -> 0 <= v ->
  markKnown h (afGetLoopTrack h i l) (afGetLoopStart h i l) -> markKnown h (afGetLoopTrack h i l) (afGetLoopEnd h i l) ->
  (snd (afSetLoopStartFrame h i l v) = 0 /\ afGetLoopStartFrame (fst (afSetLoopStartFrame h i l v)) i l = v) /\
  (snd (afSetLoopEndFrame h i l v) = 0 /\ afGetLoopEndFrame (fst (afSetLoopEndFrame h i l v)) i l = v) /\
  (afGetLoopStart h i l <> afGetLoopEnd h i l -> afGetLoopEndFrame (fst (afSetLoopStartFrame h i l v)) i l = afGetLoopEndFrame h i l /\
     afGetLoopStartFrame (fst (afSetLoopEndFrame h i l v)) i l = afGetLoopStartFrame h i l).
Proof.
  intros h i l v Hw Hk Hv Ms Me. apply loopKnown_spec in Hk as [k Hk].
  unfold afGetLoopTrack, afGetLoopStart, afGetLoopEnd in *. rewrite Hk in *.
  unfold afSetLoopStartFrame, afSetLoopEndFrame, afGetLoopStartFrame, afGetLoopEndFrame. rewrite getLoop_true, Hw, Hk.
  replace (v <? 0) with false by lia. cbn [fst snd].
  assert (G : forall t m p, getLoop (afSetMarkPosition h t m p) i l false = Some k).
  { intros. unfold getLoop. rewrite insts_set. exact Hk. }
  rewrite !G.
  destruct (C44_set_then_get h (lp_track k) (lp_begin k) v Hw Ms) as (S1 & S2 & _).
  destruct (C44_set_then_get h (lp_track k) (lp_end k) v Hw Me) as (E1 & E2 & _).
  split; [split; [reflexivity|rewrite S1; lia]|]. split; [split; [reflexivity|rewrite E1; lia]|].
  intros Hne. split; [apply S2|apply E2]; congruence.
Qed.
Print Assumptions C45_loop_frames.
Theorem C45_negative_frames_refused : forall h i l v, v < 0 ->
  afSetLoopStartFrame h i l v = (h, -1) /\ afSetLoopEndFrame h i l v = (h, -1).
Proof. intros h i l v Hv. unfold afSetLoopStartFrame, afSetLoopEndFrame. destruct (getLoop h i l true); [|split; reflexivity]. replace (v <? 0) with true by lia. split; reflexivity. Qed.
Print Assumptions C45_negative_frames_refused.

(** ** C44: the position of a marker after a history *)

(** What a call sets the position of marker [m] of track [t] to, if anything: directly, or as the start or end of a
    loop that refers to it. *)
Definition markCall (h : handle) (c : mcall) (t m : Z) (cur : Z) : Z :=
  match c with
  | SetMarkPosition t' m' p => if (t' =? t) && (m' =? m) then Z.max 0 p else cur
  | SetLoopStartFrame i l v =>
      match getLoop h i l false with
      | Some _ => if (afGetLoopTrack h i l =? t) && (afGetLoopStart h i l =? m) && (0 <=? v) then v else cur
      | None => cur
      end
  | SetLoopEndFrame i l v =>
      match getLoop h i l false with
      | Some _ => if (afGetLoopTrack h i l =? t) && (afGetLoopEnd h i l =? m) && (0 <=? v) then v else cur
      | None => cur
      end
  | _ => cur
  end.

Lemma mark_same h h' t m : h_tracks h' = h_tracks h -> afGetMarkPosition h' t m = afGetMarkPosition h t m /\ afGetMarkIDs h' t = afGetMarkIDs h t /\ afGetMarkName h' t m = afGetMarkName h t m.
Proof. intros E. unfold afGetMarkPosition, afGetMarkIDs, afGetMarkName, getMarker. rewrite E. auto. Qed.

Lemma mstep_mark {B : Build} h c h' t m : wfh h -> h_writing h = true -> markKnown h t m -> mstep h c = Ok h' ->
  afGetMarkPosition h' t m = markCall h c t m (afGetMarkPosition h t m) /\ afGetMarkIDs h' t = afGetMarkIDs h t /\ afGetMarkName h' t m = afGetMarkName h t m.
Proof.
  intros W Hw Hk.
  assert (Set1 : forall t' m' p, afGetMarkPosition (afSetMarkPosition h t' m' p) t m = (if (t' =? t) && (m' =? m) then Z.max 0 p else afGetMarkPosition h t m) /\
     afGetMarkIDs (afSetMarkPosition h t' m' p) t = afGetMarkIDs h t /\ afGetMarkName (afSetMarkPosition h t' m' p) t m = afGetMarkName h t m).
  { intros t' m' p. pose proof (fun K => C44_set_then_get h t' m' p Hw K) as S.
    assert (D : markKnown h t' m' \/ ~ markKnown h t' m').
    { rewrite markKnown_spec. destruct (getMarker h t' m'); [left; eauto|right; intros [? ?]; discriminate]. }
    destruct D as [K|K].
    - destruct (S K) as (S1 & S2 & S3 & S4 & _). split; [|split; [apply S4|apply S3]].
      destruct ((t' =? t) && (m' =? m)) eqn:E.
      + replace t with t' by lia. replace m with m' by lia. exact S1.
      + apply S2. intros E'. injection E' as -> ->. rewrite !Z.eqb_refl in E. discriminate.
    - rewrite C44_refused by (right; exact K). split; [|auto]. destruct ((t' =? t) && (m' =? m)) eqn:E; [|reflexivity].
      exfalso. apply K. replace t' with t by lia. replace m' with m by lia. exact Hk. }
  destruct c as [t' m' p|i l v|i l v|i l v|i l v|i l v|i l v|i l v|i l n|i p v|id data|id n|id o]; cbn [mstep markCall]; intros H.
  - injection H as <-. apply Set1.
  - injection H as <-. apply mark_same. unfold afSetLoopMode. destruct (getLoop h i l true); [|reflexivity]. destruct (_ && _); reflexivity.
  - injection H as <-. apply mark_same. unfold afSetLoopCount. destruct (getLoop h i l true); [|reflexivity]. destruct (_ <? _); reflexivity.
  - injection H as <-. apply mark_same. unfold afSetLoopStart. destruct (getLoop h i l true); reflexivity.
  - injection H as <-. apply mark_same. unfold afSetLoopEnd. destruct (getLoop h i l true); reflexivity.
  - injection H as <-. apply mark_same. unfold afSetLoopTrack. destruct (getLoop h i l true); reflexivity.
  - injection H as <-. unfold afSetLoopStartFrame, afGetLoopTrack, afGetLoopStart. rewrite getLoop_true, Hw. destruct (getLoop h i l false) as [k|]; [|auto].
    destruct (v <? 0) eqn:E; cbn [fst].
    + replace (0 <=? v) with false by lia. rewrite andb_false_r. auto.
    + replace (0 <=? v) with true by lia. rewrite andb_true_r. replace v with (Z.max 0 v) at 2 by lia. apply Set1.
  - injection H as <-. unfold afSetLoopEndFrame, afGetLoopTrack, afGetLoopEnd. rewrite getLoop_true, Hw. destruct (getLoop h i l false) as [k|]; [|auto].
    destruct (v <? 0) eqn:E; cbn [fst].
    + replace (0 <=? v) with false by lia. rewrite andb_false_r. auto.
    + replace (0 <=? v) with true by lia. rewrite andb_true_r. replace v with (Z.max 0 v) at 2 by lia. apply Set1.
  - destruct (setInst_spec h i l n h' W H) as [(S1 & S2 & S3 & _) _]. apply mark_same. exact S3.
  - rewrite setLong_as_list in H. destruct (setInst_spec h i _ 1 h' W H) as [(S1 & S2 & S3 & _) _]. apply mark_same. exact S3.
  - destruct (misc_same h (WriteMisc id data) h' I H) as (S1 & S2 & S3 & S4). apply mark_same. exact S3.
  - destruct (misc_same h (ReadMisc id n) h' I H) as (S1 & S2 & S3 & S4). apply mark_same. exact S3.
  - destruct (misc_same h (SeekMisc id o) h' I H) as (S1 & S2 & S3 & S4). apply mark_same. exact S3.
Qed.

(** the position after the calls: each call's effect, in the state it is made in *)
Fixpoint markSpec {B : Build} (h : handle) (cs : list mcall) (t m cur : Z) : Z :=
  match cs with
  | [] => cur
  | c :: cs' => match mstep h c with Ok h' => markSpec h' cs' t m (markCall h c t m cur) | _ => cur end
  end.
Theorem C44_position_after_any_history : forall (B : Build) cs h h' t m, wfh h -> h_writing h = true -> markKnown h t m ->
  mrun h cs = Ok h' ->
  afGetMarkPosition h' t m = markSpec h cs t m (afGetMarkPosition h t m) /\
  afGetMarkIDs h' t = afGetMarkIDs h t /\ afGetMarkName h' t m = afGetMarkName h t m.
Proof.
  intros B cs. induction cs as [|c cs IH]; intros h h' t m W Hw Hk H; [injection H as <-; auto|].
  cbn [mrun markSpec] in *. destruct (mstep h c) as [h1| | |] eqn:H1; try discriminate. cbn [rbind] in H.
  destruct (mstep_loop h c h1 W H1) as (A1 & A2 & A3 & A4 & A5 & A6).
  destruct (mstep_mark h c h1 t m W Hw Hk H1) as (M1 & M2 & M3).
  destruct (IH h1 h' t m A4 ltac:(congruence)) as (I1 & I2 & I3); [destruct Hk as (ids & E & Hin); exists ids; rewrite M2; auto|exact H|].
  rewrite I1, M1. split; [reflexivity|]. split; congruence.
Qed.
Print Assumptions C44_position_after_any_history.

(** A freshly opened file lists the markers of its setup, all at position 0, with the names given (cut to 255 bytes). *)
Theorem C44_new_file : forall s t ids m name, markKnown (initFromSetup s) t m \/ (exists x, lookup ts_id t (su_tracks s) = Some x) ->
  In m ids ->
  let h := initFromSetup (afInitMarkName (afInitMarkIDs s t ids) t m name) in
  afGetMarkIDs h t = Some ids /\ (forall m', afGetMarkPosition h t m' = 0) /\
  afGetMarkName h t m = Some (zfirstn 255 name) /\ (forall m', In m' ids -> m' <> m -> afGetMarkName h t m' = Some []).
Proof.
  intros s t ids m name Ht Hm. cbv zeta.
  assert (X : exists x, lookup ts_id t (su_tracks s) = Some x).
  { destruct Ht as [K|K]; [|exact K]. destruct K as (ids' & E & _). unfold afGetMarkIDs, initFromSetup in E. cbn in E.
    rewrite (lookup_map ts_id) in E by reflexivity. destruct (lookup ts_id t (su_tracks s)); [eauto|discriminate]. }
  destruct X as [x X]. unfold afInitMarkName, afInitMarkIDs, initFromSetup, afGetMarkIDs, afGetMarkPosition, afGetMarkName, getMarker. cbn [su_tracks h_tracks su_format su_insts su_misc].
  rewrite (lookup_map ts_id) by reflexivity. rewrite !lookup_update by reflexivity. rewrite !Z.eqb_refl, X. cbn [option_map ts_markers tk_markers tk_id].
  assert (L : forall m', lookup mk_id m' (map (fun m0 => Marker (ms_id m0) (ms_name m0) (ms_comment m0) 0)
     (update ms_id m (fun m0 => MarkerSetup (ms_id m0) (zfirstn 255 name) (ms_comment m0)) (map (fun i => MarkerSetup i [] []) ids)))
     = option_map (fun m0 => Marker (ms_id m0) (ms_name m0) (ms_comment m0) 0)
        (if m' =? m then option_map (fun m0 => MarkerSetup (ms_id m0) (zfirstn 255 name) (ms_comment m0)) (option_map (fun i => MarkerSetup i [] []) (lookup (fun i => i) m ids))
         else option_map (fun i => MarkerSetup i [] []) (lookup (fun i => i) m' ids))).
  { intros m'. rewrite (lookup_map ms_id) by reflexivity. rewrite lookup_update by reflexivity. rewrite !(lookup_map (fun i : Z => i)) by reflexivity. reflexivity. }
  assert (In' : forall m', In m' ids -> exists y, lookup (fun i => i) m' ids = Some y).
  { intros m' H. apply lookup_In. rewrite map_id. exact H. }
  split; [|split; [|split]].
  - f_equal. rewrite map_map. cbn. rewrite map_key_update by reflexivity. rewrite map_map. cbn. apply map_id.
  - intros m'. rewrite L. destruct (m' =? m); [destruct (lookup (fun i => i) m ids)|destruct (lookup (fun i => i) m' ids)]; reflexivity.
  - rewrite L, Z.eqb_refl. destruct (In' m Hm) as [y ->]. reflexivity.
  - intros m' H Hne. rewrite L. replace (m' =? m) with false by lia. destruct (In' m' H) as [y ->]. reflexivity.
Qed.
Print Assumptions C44_new_file.

(** ** C46: instrument parameters *)

(** The parameters a file format has and the values it admits (docs: afInitInstIDs, AIFF and WAVE instrument chunks). *)
Definition validParam (fmt p v : Z) : Prop :=
  (fmt = FILE_AIFF \/ fmt = FILE_AIFFC \/ fmt = FILE_WAVE) /\
  ((p = 301 \/ p = 303 \/ p = 304) /\ 0 <= v <= 127 \/
   p = 302 /\ -50 <= v <= 50 \/
   (p = 305 \/ p = 306) /\ 1 <= v <= 127 \/
   p = 307 \/
   (p = 308 \/ p = 309) /\ fmt <> FILE_WAVE).
Lemma validParam_spec fmt p v : validParam fmt p v <->
  (fmt =? FILE_AIFFC) || (fmt =? FILE_AIFF) || (fmt =? FILE_WAVE) = true /\ rangeValid fmt p v = true.
Proof.
  unfold validParam, rangeValid, FILE_AIFF, FILE_AIFFC, FILE_WAVE. split.
  - intros [F H]. split; [lia|].
    repeat match goal with |- (if ?b then _ else _) = true => destruct b eqn:? end; try reflexivity; lia.
  - intros [F H]. split; [lia|].
    repeat match type of H with (if ?b then _ else _) = true => destruct b eqn:? end; try discriminate; lia.
Qed.

Lemma setParams_obs {B : Build} h i items n h' i' p' : wfh h -> h_writing h = true -> In i (afGetInstIDs h) ->
  afSetInstParams h i (Some items) n = Ok h' ->
  obs h' i' p' = if (i' =? i) && (if in_dec Z.eq_dec p' (paramIds (h_format h)) then true else false)
                 then fold_left (applyItem (h_format h) p') (zfirstn n items) (obs h i' p') else obs h i' p'.
Proof.
  intros W Hw Hi H. unfold afSetInstParams in H. rewrite Hw in H. cbn [negb] in H.
  apply (lookup_In in_id) in Hi as [ins Hi]. rewrite Hi in H. cbn [AUpvgetmaxitems rbind] in H. cbv zeta in H. pose proof (zlen_nonneg items).
  destruct (setLoop_spec items i (Z.to_nat (if zlen items <? n then zlen items else n)) h 0 W (ex_intro _ ins Hi) ltac:(lia)) as (h2 & E2 & W2 & S2 & O2).
  { destruct (zlen items <? n) eqn:En; lia. }
  assert (h2 = h') by congruence. subst h2. rewrite O2. change (zskipn 0 items) with items.
  replace (firstn (Z.to_nat (if zlen items <? n then zlen items else n)) items) with (zfirstn n items); [reflexivity|].
  unfold zfirstn. destruct (zlen items <? n) eqn:En; [|reflexivity]. unfold zlen in *. rewrite !firstn_all2 by lia. reflexivity.
Qed.

Lemma afSetInstParams_ok {B : Build} h i items n : wfh h -> exists h', afSetInstParams h i (Some items) n = Ok h'.
Proof.
  intros W. unfold afSetInstParams. destruct (h_writing h); cbn [negb]; [|eauto]. destruct (lookup in_id i (h_insts h)) as [ins|] eqn:E; [|eauto].
  cbn [AUpvgetmaxitems rbind]. cbv zeta. pose proof (zlen_nonneg items).
  destruct (setLoop_spec items i (Z.to_nat (if zlen items <? n then zlen items else n)) h 0 W (ex_intro _ ins E) ltac:(lia)) as (h2 & E2 & _).
  { destruct (zlen items <? n) eqn:En; lia. }
  eauto.
Qed.

(** Setting a valid value: the next query returns it, every other parameter of every instrument and everything else in
    the file stays. *)
Theorem C46_set_then_get : forall (B : Build) h i p v, wfh h -> h_writing h = true -> In i (afGetInstIDs h) ->
  validParam (h_format h) p v ->
  exists h', afSetInstParamLong h i p v = Ok h' /\
    afGetInstParamLong h' i p = Ok v /\
    (forall i' p', (i', p') <> (i, p) -> afGetInstParamLong h' i' p' = afGetInstParamLong h i' p') /\
    wfh h' /\ sameButValues h h'.
Proof.
  intros B h i p v W Hw Hi Hv. destruct (afSetInstParams_ok h i [PvItem PVTYPE_LONG p v] 1 W) as [h' E]. exists h'.
  rewrite setLong_as_list. split; [exact E|].
  destruct (setInst_spec h i _ 1 h' W E) as [S W'].
  pose proof (fun i' p' => setParams_obs h i _ 1 h' i' p' W Hw Hi E) as O.
  change (zfirstn 1 [PvItem PVTYPE_LONG p v]) with [PvItem PVTYPE_LONG p v] in O. cbn [fold_left] in O.
  apply validParam_spec in Hv as [F Hv].
  split; [|split; [|split; [exact W'|exact S]]].
  - rewrite getLong_spec by exact W'. rewrite O, Z.eqb_refl. destruct (in_dec Z.eq_dec p (paramIds (h_format h))) as [_|N].
    + unfold applyItem. cbn [pv_param pv_type pv_value andb]. rewrite !Z.eqb_refl, Hv. reflexivity.
    + exfalso. apply N, (rangeValid_known _ _ v F Hv).
  - intros i' p' Hne. rewrite !getLong_spec by assumption. rewrite O. destruct (_ && _) eqn:E1; [|reflexivity].
    unfold applyItem. cbn [pv_param pv_type pv_value]. destruct (p =? p') eqn:E2; [|reflexivity]. exfalso. apply Hne. f_equal; lia.
Qed.
Print Assumptions C46_set_then_get.

(** Setting from a list is setting its first [n] items of integer type one after the other, skipping those whose
    parameter the format does not have or whose value it does not admit. *)
Definition validB (fmt p v : Z) : {validParam fmt p v} + {~ validParam fmt p v}.
Proof.
  destruct (((fmt =? FILE_AIFFC) || (fmt =? FILE_AIFF) || (fmt =? FILE_WAVE)) && rangeValid fmt p v) eqn:E.
  - left. apply validParam_spec. apply andb_true_iff in E. exact E.
  - right. intros H. apply validParam_spec in H. destruct H. rewrite H, H0 in E. discriminate.
Defined.
Definition paramSpec (fmt p : Z) (items : list pvitem) (cur : Z) : Z :=
  fold_left (fun cur it => if Z.eq_dec (pv_param it) p then if Z.eq_dec (pv_type it) PVTYPE_LONG then if validB fmt p (pv_value it) then pv_value it else cur else cur else cur) items cur.
Theorem C46_set_list : forall (B : Build) h i items n, wfh h -> h_writing h = true -> In i (afGetInstIDs h) ->
  exists h', afSetInstParams h i (Some items) n = Ok h' /\
    (forall p cur, afGetInstParamLong h i p = Ok cur -> afGetInstParamLong h' i p = Ok (paramSpec (h_format h) p (zfirstn n items) cur)) /\
    (forall i' p, i' <> i -> afGetInstParamLong h' i' p = afGetInstParamLong h i' p) /\ wfh h' /\ sameButValues h h'.
Proof.
  intros B h i items n W Hw Hi. destruct (afSetInstParams_ok h i items n W) as [h' E]. exists h'. split; [exact E|].
  destruct (setInst_spec h i _ n h' W E) as [S W']. split; [|split; [|split; [exact W'|exact S]]].
  - intros p cur. rewrite !getLong_spec by assumption. intros H. injection H as <-. f_equal.
    rewrite (setParams_obs h i items n h' i p W Hw Hi E), Z.eqb_refl. cbn [andb].
    generalize (obs h i p). unfold paramSpec.
    destruct (in_dec Z.eq_dec p (paramIds (h_format h))) as [Hp|Hp].
    + induction (zfirstn n items) as [|it its IH]; intros cur; [reflexivity|]. cbn [fold_left]. rewrite IH. f_equal.
      unfold applyItem. destruct (Z.eq_dec (pv_param it) p) as [Ep|Ep]; [replace (pv_param it =? p) with true by lia|replace (pv_param it =? p) with false by lia; reflexivity].
      destruct (Z.eq_dec (pv_type it) PVTYPE_LONG) as [Et|Et]; [replace (pv_type it =? PVTYPE_LONG) with true by lia|replace (pv_type it =? PVTYPE_LONG) with false by lia; reflexivity].
      cbn [andb]. destruct (validB (h_format h) p (pv_value it)) as [V|V].
      * apply validParam_spec in V as [_ ->]. reflexivity.
      * destruct (rangeValid (h_format h) p (pv_value it)) eqn:R; [|reflexivity]. exfalso. apply V, validParam_spec. split; [exact (paramIds_known _ _ Hp)|exact R].
    + induction (zfirstn n items) as [|it its IH]; intros cur; [reflexivity|]. cbn [fold_left]. rewrite <- IH.
      destruct (Z.eq_dec (pv_param it) p); [|reflexivity]. destruct (Z.eq_dec (pv_type it) PVTYPE_LONG); [|reflexivity].
      destruct (validB (h_format h) p (pv_value it)) as [V|V]; [|reflexivity]. exfalso. apply Hp. apply validParam_spec in V as [F V]. exact (rangeValid_known _ _ _ F V).
  - intros i' p Hne. rewrite !getLong_spec by assumption. rewrite (setParams_obs h i items n h' i' p W Hw Hi E). replace (i' =? i) with false by lia. reflexivity.
Qed.
Print Assumptions C46_set_list.

(** Unknown parameters, invalid values, unknown instruments and files opened for reading: no query changes. *)
Theorem C46_ignored : forall (B : Build) h i p v, wfh h ->
  (h_writing h = false \/ ~ In i (afGetInstIDs h) \/ ~ validParam (h_format h) p v) ->
  exists h', afSetInstParamLong h i p v = Ok h' /\ sameButValues h h' /\ forall i' p', afGetInstParamLong h' i' p' = afGetInstParamLong h i' p'.
Proof.
  intros B h i p v W Hr. destruct (h_writing h) eqn:Hw.
  - destruct (in_dec Z.eq_dec i (afGetInstIDs h)) as [Hi|Hi].
    + assert (Nv : ~ validParam (h_format h) p v) by (destruct Hr as [Hr|[Hr|Hr]]; [discriminate|tauto|exact Hr]).
      destruct (afSetInstParams_ok h i [PvItem PVTYPE_LONG p v] 1 W) as [h' E]. exists h'. rewrite setLong_as_list. split; [exact E|].
      destruct (setInst_spec h i _ 1 h' W E) as [S W']. split; [exact S|]. intros i' p'. rewrite !getLong_spec by assumption. f_equal.
      rewrite (setParams_obs h i _ 1 h' i' p' W Hw Hi E). change (zfirstn 1 [PvItem PVTYPE_LONG p v]) with [PvItem PVTYPE_LONG p v]. cbn [fold_left].
      destruct (in_dec Z.eq_dec p' (paramIds (h_format h))) as [Hp|Hp]; [|rewrite andb_false_r; reflexivity].
      destruct (i' =? i); cbn [andb]; [|reflexivity].
      unfold applyItem. cbn [pv_param pv_type pv_value]. destruct (p =? p') eqn:Ep; [|reflexivity]. cbn [andb]. rewrite Z.eqb_refl. cbn [andb].
      destruct (rangeValid (h_format h) p' v) eqn:R; [|reflexivity]. exfalso. apply Nv, validParam_spec. replace p with p' by lia.
      split; [exact (paramIds_known _ _ Hp)|exact R].
    + exists h. split; [|split; [apply sameButValues_refl|reflexivity]]. rewrite setLong_as_list. unfold afSetInstParams. rewrite Hw. cbn [negb].
      destruct (lookup in_id i (h_insts h)) eqn:E; [|reflexivity]. exfalso. apply Hi, (lookup_In in_id). eauto.
  - exists h. split; [|split; [apply sameButValues_refl|reflexivity]]. rewrite setLong_as_list. unfold afSetInstParams. rewrite Hw. reflexivity.
Qed.
Print Assumptions C46_ignored.

(** Parameter values after any history *)
Definition paramCall (h : handle) (c : mcall) (i p cur : Z) : Z :=
  match c with
  | SetInstParamLong i' p' v => if Z.eq_dec i' i then if Z.eq_dec p' p then if validB (h_format h) p v then v else cur else cur else cur
  | SetInstParams i' (Some items) n => if Z.eq_dec i' i then paramSpec (h_format h) p (zfirstn n items) cur else cur
  | _ => cur
  end.
Theorem C46_params_after_any_history : forall (B : Build) cs h h' i p v, wfh h -> h_writing h = true -> In i (afGetInstIDs h) ->
  mrun h cs = Ok h' -> afGetInstParamLong h i p = Ok v ->
  afGetInstParamLong h' i p = Ok (fold_left (fun cur c => paramCall h c i p cur) cs v).
Proof.
  intros B cs. induction cs as [|c cs IH]; intros h h' i p v W Hw Hi H Hv; [injection H as <-; exact Hv|].
  cbn [mrun] in H. destruct (mstep h c) as [h1| | |] eqn:H1; try discriminate. cbn [rbind] in H. cbn [fold_left].
  destruct (mstep_loop h c h1 W H1) as (A1 & A2 & A3 & A4 & A5 & A6).
  assert (E : afGetInstParamLong h1 i p = Ok (paramCall h c i p v)).
  { assert (Ob : forall h2, wfh h2 -> (forall i' p', obs h2 i' p' = obs h i' p') -> afGetInstParamLong h2 i p = Ok v).
    { intros h2 W2 O. rewrite getLong_spec in * by assumption. rewrite O. exact Hv. }
    assert (Ins : forall h2, h_insts h2 = h_insts h -> h_format h2 = h_format h -> forall i' p', obs h2 i' p' = obs h i' p').
    { intros h2 E1 E2 i' p'. unfold obs. rewrite E1, E2. reflexivity. }
    destruct c as [t' m' q|i0 l0 q|i0 l0 q|i0 l0 q|i0 l0 q|i0 l0 q|i0 l0 q|i0 l0 q|i0 l0 n|i0 q u|id data|id n|id o]; cbn [mstep paramCall] in *.
    - injection H1 as <-. apply Ob; [exact A4|]. apply Ins; [apply insts_set|exact A5].
    - injection H1 as <-. apply Ob; [exact A4|]. unfold afSetLoopMode. destruct (getLoop h i0 l0 true); [|reflexivity]. destruct (_ && _); [reflexivity|]. intros; apply obs_with.
    - injection H1 as <-. apply Ob; [exact A4|]. unfold afSetLoopCount. destruct (getLoop h i0 l0 true); [|reflexivity]. destruct (_ <? _); [reflexivity|]. intros; apply obs_with.
    - injection H1 as <-. apply Ob; [exact A4|]. unfold afSetLoopStart. destruct (getLoop h i0 l0 true); [|reflexivity]. intros; apply obs_with.
    - injection H1 as <-. apply Ob; [exact A4|]. unfold afSetLoopEnd. destruct (getLoop h i0 l0 true); [|reflexivity]. intros; apply obs_with.
    - injection H1 as <-. apply Ob; [exact A4|]. unfold afSetLoopTrack. destruct (getLoop h i0 l0 true); [|reflexivity]. intros; apply obs_with.
    - injection H1 as <-. apply Ob; [exact A4|]. unfold afSetLoopStartFrame. destruct (getLoop h i0 l0 true); [|reflexivity]. destruct (_ <? _); [reflexivity|]. apply Ins; [apply insts_set|]. unfold afSetMarkPosition. destruct (h_writing h); reflexivity.
    - injection H1 as <-. apply Ob; [exact A4|]. unfold afSetLoopEndFrame. destruct (getLoop h i0 l0 true); [|reflexivity]. destruct (_ <? _); [reflexivity|]. apply Ins; [apply insts_set|]. unfold afSetMarkPosition. destruct (h_writing h); reflexivity.
    - destruct l0 as [items|].
      + destruct (in_dec Z.eq_dec i0 (afGetInstIDs h)) as [Hi0|Hi0].
        * destruct (C46_set_list B h i0 items n W Hw Hi0) as (h2 & E2 & L1 & L2 & _). assert (h2 = h1) by congruence. subst h2.
          destruct (Z.eq_dec i0 i) as [->|Hne]; [apply L1, Hv|rewrite L2 by congruence; exact Hv].
        * destruct (Z.eq_dec i0 i) as [->|Hne]; [contradiction|]. unfold afSetInstParams in H1. rewrite Hw in H1. cbn [negb] in H1.
          destruct (lookup in_id i0 (h_insts h)) eqn:E0; [exfalso; apply Hi0, (lookup_In in_id); eauto|]. injection H1 as <-. exact Hv.
      + unfold afSetInstParams in H1. rewrite Hw in H1. cbn [negb] in H1. destruct (lookup in_id i0 (h_insts h)); [|injection H1 as <-; exact Hv].
        cbn [AUpvgetmaxitems] in H1. unfold rassert in H1. destruct asserting; cbn [rbind] in H1; [discriminate|]. cbv zeta in H1.
        assert (En : Z.to_nat (if BAD_PVLIST <? n then BAD_PVLIST else n) = O) by (unfold BAD_PVLIST; destruct (-5 <? n) eqn:En; lia).
        rewrite En in H1. injection H1 as <-. exact Hv.
    - destruct (in_dec Z.eq_dec i0 (afGetInstIDs h)) as [Hi0|Hi0]; [destruct (validB (h_format h) q u) as [V|V]|].
      + destruct (C46_set_then_get B h i0 q u W Hw Hi0 V) as (h2 & E2 & L1 & L2 & _). assert (h2 = h1) by congruence. subst h2.
        destruct (Z.eq_dec i0 i) as [->|Hne]; [destruct (Z.eq_dec q p) as [->|Hne]|].
        * destruct (validB (h_format h) p u); [exact L1|contradiction].
        * rewrite L2 by congruence. exact Hv.
        * rewrite L2 by congruence. exact Hv.
      + destruct (C46_ignored B h i0 q u W (or_intror (or_intror V))) as (h2 & E2 & _ & L). assert (h2 = h1) by congruence. subst h2.
        rewrite L, Hv. destruct (Z.eq_dec i0 i); [|reflexivity]. destruct (Z.eq_dec q p) as [->|]; [|reflexivity].
        destruct (validB (h_format h) p u); [contradiction|reflexivity].
      + destruct (C46_ignored B h i0 q u W (or_intror (or_introl Hi0))) as (h2 & E2 & _ & L). assert (h2 = h1) by congruence. subst h2.
        rewrite L, Hv. destruct (Z.eq_dec i0 i) as [->|]; [contradiction|reflexivity].
    - destruct (misc_same h (WriteMisc id data) h1 I H1) as (S1 & S2 & S3 & S4). apply Ob; [exact A4|]. apply Ins; assumption.
    - destruct (misc_same h (ReadMisc id n) h1 I H1) as (S1 & S2 & S3 & S4). apply Ob; [exact A4|]. apply Ins; assumption.
    - destruct (misc_same h (SeekMisc id o) h1 I H1) as (S1 & S2 & S3 & S4). apply Ob; [exact A4|]. apply Ins; assumption. }
  rewrite (IH h1 h' i p _ A4 ltac:(congruence) ltac:(rewrite A3; exact Hi) H E). unfold paramCall. rewrite A5. reflexivity.
Qed.
Print Assumptions C46_params_after_any_history.

(** A file opened for writing has all its parameters, at the defaults of the format. *)
Theorem C46_new_file : forall (B : Build) s i, wfh (initFromSetup s) /\
  (In i (afGetInstIDs (initFromSetup s)) -> (su_format s = FILE_AIFF \/ su_format s = FILE_AIFFC \/ su_format s = FILE_WAVE) ->
   map (afGetInstParamLong (initFromSetup s) i) [301; 302; 303; 304; 305; 306; 307] = map Ok [60; 0; 0; 127; 1; 127; 0]).
Proof.
  intros B s i. assert (W : wfh (initFromSetup s)).
  { unfold wfh, initFromSetup. cbn [h_insts h_format]. rewrite Forall_map. apply Forall_forall. intros x _. unfold wfInst. cbn [in_values]. apply zlen_map. }
  split; [exact W|]. intros Hi Hf. cbn [map]. rewrite !getLong_spec by exact W.
  apply (lookup_In in_id) in Hi as [ins Hi].
  assert (V : in_values ins = map snd (instParams (su_format s))).
  { unfold initFromSetup in Hi. cbn [h_insts] in Hi. rewrite (lookup_map is_id) in Hi by reflexivity.
    destruct (lookup is_id i (su_insts s)); [|discriminate]. cbn in Hi. injection Hi as <-. reflexivity. }
  unfold obs. rewrite Hi, V. change (h_format (initFromSetup s)) with (su_format s).
  destruct Hf as [->|[->| ->]]; vm_compute; reflexivity.
Qed.
Print Assumptions C46_new_file.

(** Every instrument of a new file has the loops declared for it, two with ids 1 and 2 if none were declared: they play nothing, and the
    marks of the loops are 1 and 2, 3 and 4, and so on, on the file's track. *)
Lemma initLoops_ids l : forall j, map lp_id (initLoops j l) = l.
Proof. induction l as [|i l IH]; intros j; [reflexivity|]. cbn [initLoops map lp_id]. f_equal. apply IH. Qed.
Lemma initLoops_nth l : forall j k i, NoDup l -> nth_error l k = Some i ->
  lookup lp_id i (initLoops j l) = Some (Loop i 0 0 (2 * (j + Z.of_nat k) + 1) (2 * (j + Z.of_nat k) + 2) AF_DEFAULT_TRACK).
Proof.
  induction l as [|a l IH]; intros j k i N H; [destruct k; discriminate H|]. cbn [initLoops lookup lp_id]. destruct k as [|k].
  - cbn in H. assert (a = i) as -> by congruence. rewrite Z.eqb_refl. rewrite Z.add_0_r. reflexivity.
  - cbn [nth_error] in H. apply NoDup_cons_iff in N. destruct N as [N1 N2].
    destruct (Z.eqb_spec a i) as [->|]; [exfalso; apply N1; apply (nth_error_In _ _ H)|].
    rewrite (IH (j + 1) k i N2 H). replace (j + 1 + Z.of_nat k) with (j + Z.of_nat (S k)) by lia. reflexivity.
Qed.
Theorem C45_declared_loops : forall s ids i, NoDup ids -> In i ids ->
  let declared := afInitInstIDs s ids in
  afGetLoopIDs (initFromSetup declared) i = Some [1; 2] /\
  loopFields (initFromSetup declared) i 1 = (0, 0, 1, 2, 1001) /\ loopFields (initFromSetup declared) i 2 = (0, 0, 3, 4, 1001) /\
  (forall loops, NoDup loops ->
     let h := initFromSetup (afInitLoopIDs declared i loops) in
     afGetLoopIDs h i = Some loops /\
     (forall k l, nth_error loops k = Some l -> loopFields h i l = (0, 0, 2 * Z.of_nat k + 1, 2 * Z.of_nat k + 2, 1001))).
Proof.
  intros s ids i N Hi declared.
  assert (L : lookup is_id i (su_insts declared) = Some (InstSetup i [1; 2])).
  { unfold declared, afInitInstIDs. rewrite (proj2 (uniqueIds_spec ids) N). cbn [su_insts]. clear -Hi. induction ids as [|a l IH]; [destruct Hi|].
    cbn [map lookup is_id]. destruct (Z.eqb_spec a i) as [->|]; [reflexivity|]. apply IH. destruct Hi as [->|]; [congruence|assumption]. }
  assert (G : forall su loops, lookup is_id i (su_insts su) = Some (InstSetup i loops) -> NoDup loops ->
    afGetLoopIDs (initFromSetup su) i = Some loops /\
    (forall k l, nth_error loops k = Some l -> loopFields (initFromSetup su) i l = (0, 0, 2 * Z.of_nat k + 1, 2 * Z.of_nat k + 2, 1001))).
  { intros su loops E Nl.
    assert (F : lookup in_id i (h_insts (initFromSetup su)) = Some (Inst i (initLoops 0 loops) (map snd (instParams (su_format su))))).
    { unfold initFromSetup. cbn [h_insts]. rewrite (lookup_map is_id) by reflexivity. rewrite E. reflexivity. }
    split; [unfold afGetLoopIDs; rewrite F; cbn [option_map in_loops]; now rewrite initLoops_ids|].
    intros k l H. unfold loopFields, afGetLoopMode, afGetLoopCount, afGetLoopStart, afGetLoopEnd, afGetLoopTrack, getLoop. rewrite F. cbn [in_loops andb negb].
    rewrite (initLoops_nth loops 0 k l Nl H). cbn. replace (0 + Z.of_nat k) with (Z.of_nat k) by lia. reflexivity. }
  assert (N2 : NoDup [1; 2]) by (repeat constructor; cbn; intuition discriminate).
  destruct (G _ _ L N2) as [G1 G2]. split; [exact G1|]. split; [exact (G2 0%nat 1 eq_refl)|]. split; [exact (G2 1%nat 2 eq_refl)|].
  intros loops Nl h. apply (G _ loops); [|exact Nl]. unfold afInitLoopIDs. rewrite (proj2 (uniqueIds_spec loops) Nl). cbn [su_insts].
  rewrite lookup_update by reflexivity. rewrite Z.eqb_refl, L. reflexivity.
Qed.
Print Assumptions C45_declared_loops.
(** The result of setting a loop's count: refused with -1 exactly when the file is not being written, there is no such loop or the count
    is below 1; a refused call changes nothing, an accepted one gives 0 and the count is then the one reported. *)
Theorem C45_loop_count_result : forall h i l v,
  (let r := afSetLoopCount h i l v in let taken := h_writing h = true /\ loopKnown h i l /\ 1 <= v in
    (taken -> snd r = 0 /\ afGetLoopCount (fst r) i l = v) /\ (~ taken -> r = (h, -1))).
Proof.
  intros h i l v. cbv zeta. unfold afSetLoopCount. destruct (getLoop h i l true) as [k|] eqn:G.
  - rewrite getLoop_true in G. destruct (h_writing h) eqn:Hw; [|discriminate]. destruct (v <? 1) eqn:E; cbn [fst snd].
    + split; [lia|reflexivity].
    + split; [|intros N; exfalso; apply N; repeat split; [apply loopKnown_spec; eauto|lia]]. intros _. split; [reflexivity|]. unfold afGetLoopCount. rewrite getLoop_with by reflexivity. rewrite !Z.eqb_refl. cbn [andb]. rewrite G. reflexivity.
  - rewrite getLoop_true in G. cbn [fst snd]. split; [|reflexivity]. intros (Hw & N & _). apply loopKnown_spec in N as [k N]. rewrite Hw in G. congruence.
Qed.
Print Assumptions C45_loop_count_result.
(** Without the loop every getter gives -1, and setting its frames is refused with -1; so is setting frames of a file being read. *)
Theorem C45_unknown_loop : forall h i l v,
  (~ loopKnown h i l -> loopFields h i l = (-1, -1, -1, -1, -1) /\ afGetLoopStartFrame h i l = -1 /\ afGetLoopEndFrame h i l = -1) /\
  (h_writing h = false \/ ~ loopKnown h i l -> afSetLoopStartFrame h i l v = (h, -1) /\ afSetLoopEndFrame h i l v = (h, -1)).
Proof.
  intros h i l v. assert (K : ~ loopKnown h i l -> getLoop h i l false = None) by (intros N; destruct (getLoop h i l false) eqn:G; [exfalso; apply N, loopKnown_spec; eauto|reflexivity]). split.
  - intros N. unfold loopFields, afGetLoopStartFrame, afGetLoopEndFrame, afGetLoopMode, afGetLoopCount, afGetLoopStart, afGetLoopEnd, afGetLoopTrack. rewrite (K N). repeat split.
  - intros N. unfold afSetLoopStartFrame, afSetLoopEndFrame. rewrite getLoop_true. destruct (h_writing h); [|split; reflexivity]. destruct N as [N|N]; [discriminate|]. rewrite (K N). split; reflexivity.
Qed.
Print Assumptions C45_unknown_loop.

(** ** C43: miscellaneous chunks *)

(** The specification: a chunk is a file of fixed length with a position. *)
Record bfile := BFile { bf_data : list Z; bf_pos : Z }.
Definition bfWrite (f : bfile) (d : list Z) : bfile * Z :=
  let k := Z.min (zlen d) (zlen (bf_data f) - bf_pos f) in
  (BFile (zfirstn (bf_pos f) (bf_data f) ++ zfirstn k d ++ zskipn (bf_pos f + k) (bf_data f)) (bf_pos f + k), k).
Definition bfRead (f : bfile) (n : Z) : bfile * (Z * list Z) :=
  let k := Z.min n (zlen (bf_data f) - bf_pos f) in
  (BFile (bf_data f) (bf_pos f + k), (k, zfirstn k (zskipn (bf_pos f) (bf_data f)))).

Inductive xcall := XWrite (id : Z) (d : list Z) | XRead (id n : Z) | XSeek (id o : Z).
Definition xstep (h : handle) (c : xcall) : res (handle * (Z * list Z)) :=
  match c with
  | XWrite id d => do (h, r) <- afWriteMisc h id d (zlen d); Ok (h, (r, []))
  | XRead id n => afReadMisc h id n
  | XSeek id o => let (h, r) := afSeekMisc h id o in Ok (h, (r, []))
  end.
Fixpoint xrun (h : handle) (cs : list xcall) : res (handle * list (Z * list Z)) :=
  match cs with
  | [] => Ok (h, [])
  | c :: cs' => do (h, out) <- xstep h c; do (h, outs) <- xrun h cs'; Ok (h, out :: outs)
  end.
(** [F]: the chunks by id; [w]: the file is open for writing *)
Definition files := Z -> option bfile.
Definition putf (F : files) (id : Z) (f : bfile) : files := fun id' => if id' =? id then Some f else F id'.
Definition fStep (w : bool) (F : files) (c : xcall) : files * (Z * list Z) :=
  match c with
  | XWrite id d =>
      match F id with
      | Some f => if w && (0 <? zlen d) then let (f', k) := bfWrite f d in (putf F id f', (k, [])) else (F, (-1, []))
      | None => (F, (-1, []))
      end
  | XRead id n =>
      match F id with
      | Some f => if negb w && (0 <? n) then let (f', r) := bfRead f n in (putf F id f', r) else (F, (-1, []))
      | None => (F, (-1, []))
      end
  | XSeek id o =>
      match F id with
      | Some f => if o <? zlen (bf_data f) then (putf F id (BFile (bf_data f) o), (o, [])) else (F, (-1, []))
      | None => (F, (-1, []))
      end
  end.
Fixpoint fRun (w : bool) (F : files) (cs : list xcall) : files * list (Z * list Z) :=
  match cs with
  | [] => (F, [])
  | c :: cs' => let (F', out) := fStep w F c in let (F'', outs) := fRun w F' cs' in (F'', out :: outs)
  end.

(** The chunk of a handle as such a file; a chunk whose buffer has not been allocated yet holds zeros. *)
Definition chunk (m : misc) : bfile :=
  BFile (match mi_buffer m with Some b => b | None => zrepeat 0 (mi_size m) end) (mi_pos m).
Definition chunks (h : handle) : files := fun id => option_map chunk (lookup mi_id id (h_misc h)).
(** what holds of every chunk of a file: declared size an int, position inside, buffer of the declared size; on files
    opened for reading the data has been read *)
Definition wfMisc (w : bool) (m : misc) : Prop :=
  0 <= mi_size m < 2 ^ 31 /\ 0 <= mi_pos m <= mi_size m /\
  match mi_buffer m with Some b => zlen b = mi_size m | None => w = true \/ mi_size m = 0 end.
Definition wfx (h : handle) : Prop := Forall (wfMisc (h_writing h)) (h_misc h).

Lemma chunk_len w m : wfMisc w m -> zlen (bf_data (chunk m)) = mi_size m.
Proof. intros (A & _ & C). unfold chunk. cbn. destruct (mi_buffer m); [exact C|apply zlen_repeat; lia]. Qed.
Lemma chunks_with h id m m' : lookup mi_id id (h_misc h) = Some m -> mi_id m' = mi_id m ->
  forall id', chunks (withMisc h id m') id' = putf (chunks h) id (chunk m') id'.
Proof.
  intros E Hid id'. unfold chunks, withMisc, putf. cbn [h_misc]. pose proof (lookup_key mi_id _ _ _ E) as K.
  assert (G : forall l, lookup mi_id id l = Some m -> lookup mi_id id' (update mi_id id (fun _ => m') l) = if id' =? id then Some m' else lookup mi_id id' l).
  { clear E. induction l as [|x l IH]; cbn; [discriminate|]. destruct (mi_id x =? id) eqn:Ex.
    - intros H. injection H as <-. cbn. destruct (id' =? id) eqn:Ei; [replace (mi_id m' =? id') with true by lia|replace (mi_id m' =? id') with false by lia]; [reflexivity|].
      replace (mi_id x =? id') with false by lia. reflexivity.
    - intros H. cbn. rewrite IH by exact H. destruct (id' =? id) eqn:Ei; [replace (mi_id x =? id') with false by lia|]; reflexivity. }
  rewrite (G _ E). destruct (id' =? id); reflexivity.
Qed.
Lemma wfx_with h id m' : wfx h -> wfMisc (h_writing h) m' -> wfx (withMisc h id m').
Proof. intros W H. unfold wfx, withMisc in *. cbn. apply Forall_update; [auto|exact W]. Qed.
Lemma ck32_ok x : - 2 ^ 31 <= x < 2 ^ 31 -> ck32 x = Ok x.
Proof. intros H. unfold ck32. replace (inS 32 x) with true; [reflexivity|]. symmetry. apply inS_spec. change (32 - 1) with 31. exact H. Qed.

Lemma xstep_ok h c : wfx h -> (match c with XSeek _ o => 0 <= o | _ => True end) ->
  exists h', xstep h c = Ok (h', snd (fStep (h_writing h) (chunks h) c)) /\ wfx h' /\ h_writing h' = h_writing h /\
    forall id, chunks h' id = fst (fStep (h_writing h) (chunks h) c) id.
Proof.
  intros W Hc. destruct c as [id d|id n|id o]; cbn [xstep fStep].
  - unfold afWriteMisc. assert (Ch : chunks h id = option_map chunk (lookup mi_id id (h_misc h))) by reflexivity. rewrite Ch.
    destruct (h_writing h) eqn:Hw; cbn [negb andb].
    2:{ exists h. cbn [rbind]. split; [destruct (option_map chunk (lookup mi_id id (h_misc h))); reflexivity|]. split; [exact W|]. split; [exact Hw|].
        intros id'. destruct (option_map chunk (lookup mi_id id (h_misc h))); reflexivity. }
    destruct (lookup mi_id id (h_misc h)) as [m|] eqn:E; cbn [option_map].
    2:{ exists h. cbn [rbind fst snd]. auto. }
    replace (0 <? zlen d) with (negb (zlen d <=? 0)) by lia. destruct (zlen d <=? 0) eqn:Ed; cbn [negb]; [exists h; cbn [rbind fst snd]; auto|].
    pose proof (lookup_Forall mi_id _ _ _ _ W E) as Wm. rewrite Hw in Wm. pose proof Wm as (Hs & Hp & Hb). change (2 ^ 31) with 2147483648 in Hs.
    set (b := match mi_buffer m with Some b => Some b | None => if mi_size m =? 0 then None else Some (zrepeat 0 (mi_size m)) end).
    assert (Eb : match mi_buffer m with
        | Some b => Ok (Some b)
        | None => if mi_size m =? 0 then Ok None else if mi_size m <? 0 then Ok None else Ok (Some (zrepeat 0 (mi_size m))) end = Ok b).
    { unfold b. destruct (mi_buffer m); [reflexivity|]. destruct (mi_size m =? 0); [reflexivity|]. replace (mi_size m <? 0) with false by lia. reflexivity. }
    rewrite Eb. cbn [rbind].
    assert (Nb : b = None -> mi_size m = 0 /\ bf_data (chunk m) = []).
    { unfold b, chunk. cbn. destruct (mi_buffer m); [discriminate|]. destruct (mi_size m =? 0) eqn:Z0; [|discriminate]. intros _. replace (mi_size m) with 0 by lia. split; reflexivity. }
    assert (Sb : forall bs, b = Some bs -> bs = bf_data (chunk m) /\ zlen bs = mi_size m).
    { unfold b, chunk. cbn. intros bs. destruct (mi_buffer m); [intros Hx; injection Hx as <-; auto|]. destruct (mi_size m =? 0) eqn:Z0; [discriminate|].
      intros Hx; injection Hx as <-. split; [reflexivity|apply zlen_repeat; lia]. }
    replace ((match b with None => true | _ => false end) && negb (mi_size m =? 0)) with false by (destruct b; [reflexivity|destruct (Nb eq_refl); lia]).
    rewrite ck32_ok by (change (2 ^ 31) with 2147483648; lia). cbn [rbind].
    set (k := Z.min (zlen d) (mi_size m - mi_pos m)).
    assert (Hk : 0 <= k /\ mi_pos m + k <= mi_size m /\ k <= zlen d) by (unfold k; lia).
    pose proof (chunk_len _ _ Wm) as Lc. pose proof (bfWrite (chunk m) d) as _.
    assert (Ew : exists b', bufWrite b (mi_pos m) d k = Ok b' /\
       match b' with Some x => x | None => zrepeat 0 (mi_size m) end = zfirstn (mi_pos m) (bf_data (chunk m)) ++ zfirstn k d ++ zskipn (mi_pos m + k) (bf_data (chunk m)) /\
       (match b' with Some x => zlen x = mi_size m | None => true = true \/ mi_size m = 0 end)).
    { unfold bufWrite. destruct (k =? 0) eqn:K0.
      - exists b. split; [reflexivity|]. replace k with 0 by lia. rewrite (zfirstn_0 0 d) by lia. cbn [app]. rewrite Z.add_0_r, zfirstn_skipn.
        destruct b as [bs|] eqn:B0.
        + destruct (Sb bs eq_refl) as [-> L]. split; [reflexivity|exact L].
        + destruct (Nb eq_refl) as [-> ->]. split; [reflexivity|auto].
      - destruct b as [bs|] eqn:B0; [|destruct (Nb eq_refl); lia]. destruct (Sb bs eq_refl) as [-> L].
        replace ((0 <=? mi_pos m) && (0 <? k) && (mi_pos m + k <=? zlen (bf_data (chunk m))) && (k <=? zlen d)) with true by lia.
        eexists. split; [reflexivity|]. split; [reflexivity|]. rewrite !zlen_app, !zlen_firstn, zlen_skipn by lia. lia. }
    destruct Ew as (b' & -> & Eb' & Lb'). cbn [rbind]. rewrite ck32_ok by (change (2 ^ 31) with 2147483648; lia). cbn [rbind fst snd].
    unfold bfWrite. rewrite Lc. change (bf_pos (chunk m)) with (mi_pos m). fold k. cbn [fst snd].
    eexists. split; [reflexivity|]. split; [|split].
    + apply wfx_with; [exact W|]. rewrite Hw. unfold wfMisc. cbn [mi_size mi_pos mi_buffer]. split; [exact (proj1 Wm)|]. split; [lia|]. destruct b'; [exact Lb'|left; reflexivity].
    + cbn. exact Hw.
    + intros id'. rewrite (chunks_with h id m) by (try exact E; reflexivity). unfold putf. destruct (id' =? id); [|reflexivity]. f_equal.
      unfold chunk at 1. cbn [mi_buffer mi_pos mi_size]. rewrite Eb'. reflexivity.
  - unfold afReadMisc. assert (Ch : chunks h id = option_map chunk (lookup mi_id id (h_misc h))) by reflexivity. rewrite Ch.
    destruct (h_writing h) eqn:Hw; cbn [negb andb].
    { exists h. cbn [rbind]. split; [destruct (option_map chunk (lookup mi_id id (h_misc h))); reflexivity|]. split; [exact W|]. split; [exact Hw|].
      intros id'. destruct (option_map chunk (lookup mi_id id (h_misc h))); reflexivity. }
    destruct (lookup mi_id id (h_misc h)) as [m|] eqn:E; cbn [option_map].
    2:{ exists h. cbn [rbind fst snd]. auto. }
    replace (0 <? n) with (negb (n <=? 0)) by lia. destruct (n <=? 0) eqn:Ed; cbn [negb]; [exists h; cbn [rbind fst snd]; auto|].
    pose proof (lookup_Forall mi_id _ _ _ _ W E) as Wm. rewrite Hw in Wm. pose proof Wm as (Hs & Hp & Hb). change (2 ^ 31) with 2147483648 in Hs.
    rewrite ck32_ok by (change (2 ^ 31) with 2147483648; lia). cbn [rbind].
    set (k := Z.min n (mi_size m - mi_pos m)).
    assert (Hk : 0 <= k /\ mi_pos m + k <= mi_size m) by (unfold k; lia).
    pose proof (chunk_len _ _ Wm) as Lc.
    assert (Er : bufRead (mi_buffer m) (mi_pos m) k = Ok (zfirstn k (zskipn (mi_pos m) (bf_data (chunk m))))).
    { unfold bufRead. destruct (k =? 0) eqn:K0; [rewrite (zfirstn_0 k) by lia; reflexivity|]. unfold chunk in *. cbn [bf_data] in *.
      destruct (mi_buffer m) as [bs|]; [|destruct Hb as [Hb|Hb]; [discriminate|lia]].
      replace ((0 <=? mi_pos m) && (0 <? k) && (mi_pos m + k <=? zlen bs)) with true by lia. reflexivity. }
    rewrite Er. cbn [rbind]. rewrite ck32_ok by (change (2 ^ 31) with 2147483648; lia). cbn [rbind fst snd].
    unfold bfRead. rewrite Lc. change (bf_pos (chunk m)) with (mi_pos m). fold k. cbn [fst snd].
    eexists. split; [reflexivity|]. split; [|split].
    + apply wfx_with; [exact W|]. rewrite Hw. unfold wfMisc. cbn [mi_size mi_pos mi_buffer]. split; [exact (proj1 Wm)|]. split; [lia|exact Hb].
    + cbn. exact Hw.
    + intros id'. rewrite (chunks_with h id m) by (try exact E; reflexivity). unfold putf. destruct (id' =? id); reflexivity.
  - unfold afSeekMisc. assert (Ch : chunks h id = option_map chunk (lookup mi_id id (h_misc h))) by reflexivity. rewrite Ch.
    destruct (lookup mi_id id (h_misc h)) as [m|] eqn:E; cbn [option_map]; [|exists h; cbn [fst snd]; auto].
    pose proof (lookup_Forall mi_id _ _ _ _ W E) as Wm. rewrite (chunk_len _ _ Wm). pose proof Wm as (Hs & Hp & Hb).
    replace (o <? mi_size m) with (negb (mi_size m <=? o)) by lia. destruct (mi_size m <=? o) eqn:Eo; cbn [negb fst snd]; [exists h; auto|].
    eexists. split; [reflexivity|]. split; [|split; [reflexivity|]].
    + apply wfx_with; [exact W|]. unfold wfMisc. cbn [mi_size mi_pos mi_buffer]. split; [exact Hs|]. split; [lia|exact Hb].
    + intros id'. rewrite (chunks_with h id m) by (try exact E; reflexivity). unfold putf. destruct (id' =? id); reflexivity.
Qed.

Lemma fStep_ext w F G c : (forall id, F id = G id) -> snd (fStep w F c) = snd (fStep w G c) /\ forall id, fst (fStep w F c) id = fst (fStep w G c) id.
Proof.
  intros E. destruct c as [id d|id n|id o]; cbn [fStep]; rewrite (E id); destruct (G id) as [f|]; try (split; [reflexivity|exact E]).
  - destruct (w && _); [|split; [reflexivity|exact E]]. destruct (bfWrite f d). cbn. split; [reflexivity|]. intros id'. unfold putf. rewrite E. reflexivity.
  - destruct (negb w && _); [|split; [reflexivity|exact E]]. destruct (bfRead f n). cbn. split; [reflexivity|]. intros id'. unfold putf. rewrite E. reflexivity.
  - destruct (o <? _); [|split; [reflexivity|exact E]]. cbn. split; [reflexivity|]. intros id'. unfold putf. rewrite E. reflexivity.
Qed.
Lemma fRun_ext w cs : forall F G, (forall id, F id = G id) -> snd (fRun w F cs) = snd (fRun w G cs) /\ forall id, fst (fRun w F cs) id = fst (fRun w G cs) id.
Proof.
  induction cs as [|c cs IH]; intros F G E; [split; [reflexivity|exact E]|]. cbn [fRun].
  destruct (fStep_ext w F G c E) as [E1 E2]. destruct (fStep w F c) as [F1 o1], (fStep w G c) as [G1 o2]. cbn [fst snd] in *.
  destruct (IH F1 G1 E2) as [E3 E4]. destruct (fRun w F1 cs) as [F2 o3], (fRun w G1 cs) as [G2 o4]. cbn [fst snd] in *. split; [congruence|exact E4].
Qed.

(** Every history of writes, reads and seeks (to offsets that are not negative) on the chunks of a file behaves as on
    bounded files, one per chunk id, and never leaves a chunk's buffer. *)
Theorem C43_chunks_are_bounded_files_partial : forall cs h, wfx h ->
  Forall (fun c => match c with XSeek _ o => 0 <= o | _ => True end) cs ->
  exists h', xrun h cs = Ok (h', snd (fRun (h_writing h) (chunks h) cs)) /\ wfx h' /\
    forall id, chunks h' id = fst (fRun (h_writing h) (chunks h) cs) id.
Proof.
  induction cs as [|c cs IH]; intros h W Hc; [exists h; repeat split; exact W|].
  apply Forall_cons_iff in Hc as [Hc Hcs]. cbn [xrun fRun].
  destruct (xstep_ok h c W Hc) as (h1 & E1 & W1 & Hw1 & C1). rewrite E1. cbn [rbind].
  destruct (IH h1 W1 Hcs) as (h2 & E2 & W2 & C2). rewrite E2. cbn [rbind]. rewrite Hw1 in *.
  destruct (fStep (h_writing h) (chunks h) c) as [F1 o1]. cbn [fst snd] in *.
  destruct (fRun_ext (h_writing h) cs (chunks h1) F1 C1) as [X1 X2]. destruct (fRun (h_writing h) F1 cs) as [F2 os]. cbn [fst snd] in *.
  exists h2. split; [rewrite X1; reflexivity|]. split; [exact W2|]. intros id. rewrite C2. apply X2.
Qed.
Print Assumptions C43_chunks_are_bounded_files_partial.

(** In a bounded file, writing data that fits at a position and reading from there gives the data back. *)
Theorem C43_write_then_read : forall f d, 0 <= bf_pos f -> bf_pos f + zlen d <= zlen (bf_data f) ->
  snd (bfWrite f d) = zlen d /\ zlen (bf_data (fst (bfWrite f d))) = zlen (bf_data f) /\
  snd (bfRead (BFile (bf_data (fst (bfWrite f d))) (bf_pos f)) (zlen d)) = (zlen d, d).
Proof.
  intros f d Hp Hd. pose proof (zlen_nonneg d). unfold bfWrite. cbn [fst snd bf_data bf_pos].
  replace (Z.min (zlen d) (zlen (bf_data f) - bf_pos f)) with (zlen d) by lia. rewrite (zfirstn_all (zlen d) d) by lia.
  assert (L : zlen (zfirstn (bf_pos f) (bf_data f) ++ d ++ zskipn (bf_pos f + zlen d) (bf_data f)) = zlen (bf_data f)).
  { rewrite !zlen_app, zlen_firstn, zlen_skipn by lia. lia. }
  split; [reflexivity|]. split; [exact L|]. unfold bfRead. cbn [fst snd bf_data bf_pos]. rewrite L.
  replace (Z.min (zlen d) (zlen (bf_data f) - bf_pos f)) with (zlen d) by lia.
  rewrite zskipn_app_r by (rewrite zlen_firstn by lia; lia). rewrite zlen_firstn by lia.
  replace (bf_pos f - Z.min (bf_pos f) (zlen (bf_data f))) with 0 by lia. rewrite zskipn_0 by lia. rewrite zfirstn_exact. reflexivity.
Qed.
Print Assumptions C43_write_then_read.

(** A new file's chunks start as zeros at position 0. *)
Theorem C43_new_file : forall s, Forall (fun m => 0 <= xs_size m < 2 ^ 31) (su_misc s) ->
  wfx (initFromSetup s) /\
  forall id m, lookup xs_id id (su_misc s) = Some m -> chunks (initFromSetup s) id = Some (BFile (zrepeat 0 (xs_size m)) 0).
Proof.
  intros s H. split.
  - unfold wfx, initFromSetup. cbn [h_misc h_writing]. rewrite Forall_map. eapply Forall_impl; [|exact H].
    intros m Hm. cbv beta in Hm. unfold wfMisc. cbn. split; [exact Hm|]. split; [lia|auto].
  - intros id m E. unfold chunks, initFromSetup. cbn [h_misc]. rewrite (lookup_map xs_id) by reflexivity. rewrite E. reflexivity.
Qed.
Print Assumptions C43_new_file.

(** afSeekMisc takes any negative offset; the next transfer is outside the buffer, for every chunk that is not empty. *)
Theorem C43_negative_seek_refuted : forall h id m o d, wfx h -> h_writing h = true -> lookup mi_id id (h_misc h) = Some m ->
  0 < mi_size m -> - 2 ^ 30 <= o < 0 -> mi_size m < 2 ^ 30 -> 0 < zlen d ->
  snd (afSeekMisc h id o) = o /\ afWriteMisc (fst (afSeekMisc h id o)) id d (zlen d) = UB.
Proof.
  intros h id m o d W Hw E Hs Ho Hb Hd. unfold afSeekMisc. rewrite E. replace (mi_size m <=? o) with false by lia. cbn [fst snd].
  split; [reflexivity|]. unfold afWriteMisc. change (h_writing (withMisc h id _)) with (h_writing h). rewrite Hw. cbn [negb].
  unfold withMisc. cbn [h_misc].
  assert (G : forall x l, mi_id x = mi_id m -> lookup mi_id id l = Some m -> lookup mi_id id (update mi_id id (fun _ => x) l) = Some x).
  { intros x l Hx. induction l as [|y l IH]; cbn; [discriminate|]. destruct (mi_id y =? id) eqn:Ey.
    - intros H. injection H as ->. cbn. rewrite Hx, Ey. reflexivity.
    - intros H. cbn. rewrite Ey. apply IH, H. }
  rewrite (G (Misc (mi_id m) (mi_type m) (mi_size m) (mi_buffer m) o)) by (try exact E; reflexivity). clear G.
  cbn [mi_buffer mi_size mi_pos mi_id mi_type]. replace (zlen d <=? 0) with false by lia.
  assert (X : exists bs, match mi_buffer m with
        | Some b => Ok (Some b)
        | None => if mi_size m =? 0 then Ok None else if mi_size m <? 0 then Ok None else Ok (Some (zrepeat 0 (mi_size m))) end = Ok (Some bs)).
  { destruct (mi_buffer m); [eauto|]. replace (mi_size m =? 0) with false by lia. replace (mi_size m <? 0) with false by lia. eauto. }
  destruct X as [bs ->]. cbn [rbind andb].
  change (2 ^ 30) with 1073741824 in *. rewrite ck32_ok by (change (2 ^ 31) with 2147483648; lia). cbn [rbind].
  unfold bufWrite. replace (Z.min (zlen d) (mi_size m - o) =? 0) with false by lia. replace (0 <=? o) with false by lia. reflexivity.
Qed.
Print Assumptions C43_negative_seek_refuted.

(** ** The hypotheses are met by a concrete file *)
Definition exampleSetup : setup :=
  afInitMiscSize (afInitMiscIDs (afInitLoopIDs (afInitInstIDs (afInitMarkIDs
    (Setup FILE_AIFF [TrackSetup 1001 []] [] []) 1001 [1; 2; 5]) [2001]) 2001 [1; 2]) [7; 9]) 9 6.
Example C44_C45_C46_satisfiable :
  let h := initFromSetup exampleSetup in
  wfh h /\ h_writing h = true /\ markKnown h 1001 2 /\ loopKnown h 2001 2 /\ In 2001 (afGetInstIDs h) /\ validParam (h_format h) 302 (-7) /\
  exists h', @mrun Debug h [SetLoopStart 2001 2 5; SetLoopStartFrame 2001 2 44; SetMarkPosition 1001 2 (-3); SetInstParamLong 2001 302 (-7); SetInstParamLong 2001 305 0; SetLoopMode 2001 2 7; SetLoopCount 2001 2 3] = Ok h' /\
    afGetMarkPosition h' 1001 5 = 44 /\ afGetMarkPosition h' 1001 2 = 0 /\ @afGetInstParamLong Debug h' 2001 302 = Ok (-7) /\ @afGetInstParamLong Debug h' 2001 305 = Ok 1 /\
    loopFields h' 2001 2 = (0, 3, 5, 4, 1001).
Proof.
  cbv zeta. split; [apply (C46_new_file Debug exampleSetup 0)|]. split; [reflexivity|]. split; [exists [1; 2; 5]; vm_compute; auto|]. split; [exists [1; 2]; vm_compute; auto|].
  split; [vm_compute; auto|]. split; [vm_compute; intuition discriminate|]. eexists. split; [vm_compute; reflexivity|]. vm_compute. auto.
Qed.
Example C43_satisfiable :
  let h := initFromSetup exampleSetup in
  wfx h /\ exists h', xrun h [XWrite 9 [1; 2; 3; 4]; XSeek 9 2; XWrite 9 [8; 9; 10; 11; 12]; XWrite 7 [1]; XSeek 9 6; XRead 9 1]
    = Ok (h', [(4, []); (2, []); (4, []); (0, []); (-1, []); (-1, [])]) /\ chunks h' 9 = Some (BFile [1; 2; 8; 9; 10; 11] 6).
Proof.
  cbv zeta. split; [apply C43_new_file; repeat constructor; vm_compute; intuition discriminate|]. eexists. split; vm_compute; reflexivity.
Qed.
