(** * Lemmas about the metadata model *)
From Verif Require Import Prelude PreludeFacts Metadata.

Section Table.
  Context {A : Type} (key : A -> Z).
  Lemma lookup_key id l a : lookup key id l = Some a -> key a = id.
  Proof.
    induction l as [|x l IH]; cbn; [discriminate|]. destruct (key x =? id) eqn:E; [|exact IH]. intros H. injection H as <-. lia.
  Qed.
  Lemma lookup_In id l : (exists a, lookup key id l = Some a) <-> In id (map key l).
  Proof.
    induction l as [|x l IH]; cbn; [split; [intros [a H]; discriminate|tauto]|].
    destruct (key x =? id) eqn:E.
    - split; [intros _; left; lia|intros _; eauto].
    - rewrite IH. split; [tauto|]. intros [H|H]; [lia|exact H].
  Qed.
  Lemma lookup_update id id' f l : (forall a, key (f a) = key a) ->
    lookup key id' (update key id f l) = if id' =? id then option_map f (lookup key id l) else lookup key id' l.
  Proof.
    intros Hf. induction l as [|x l IH]; cbn; [destruct (id' =? id); reflexivity|].
    destruct (key x =? id) eqn:E; cbn.
    - rewrite Hf. destruct (id' =? id) eqn:E'.
      + replace (key x =? id') with true by lia. reflexivity.
      + replace (key x =? id') with false by lia. reflexivity.
    - rewrite IH. destruct (id' =? id) eqn:E'.
      + replace (key x =? id') with false by lia. reflexivity.
      + reflexivity.
  Qed.
  Lemma map_key_update id f l : (forall a, key (f a) = key a) -> map key (update key id f l) = map key l.
  Proof.
    intros Hf. induction l as [|x l IH]; cbn; [reflexivity|]. destruct (key x =? id); cbn; rewrite ?Hf, ?IH; reflexivity.
  Qed.
  Lemma update_none id f l : lookup key id l = None -> update key id f l = l.
  Proof.
    induction l as [|x l IH]; cbn; [reflexivity|]. destruct (key x =? id); [discriminate|]. intros H. rewrite IH by exact H. reflexivity.
  Qed.
  Lemma update_id id f l : (forall a, lookup key id l = Some a -> f a = a) -> update key id f l = l.
  Proof.
    induction l as [|x l IH]; cbn; [reflexivity|]. destruct (key x =? id); intros H.
    - rewrite H by reflexivity. reflexivity.
    - rewrite IH by exact H. reflexivity.
  Qed.
  Lemma Forall_update (P : A -> Prop) id f l : (forall a, P a -> P (f a)) -> Forall P l -> Forall P (update key id f l).
  Proof.
    intros Hf H. induction H as [|x l Hx H IH]; cbn; [constructor|]. destruct (key x =? id); constructor; auto.
  Qed.
  Lemma lookup_Forall (P : A -> Prop) id l a : Forall P l -> lookup key id l = Some a -> P a.
  Proof.
    induction 1 as [|x l Hx H IH]; cbn; [discriminate|]. destruct (key x =? id); [intros E; injection E as <-; exact Hx|exact IH].
  Qed.
End Table.

Lemma lookup_map {A B} (key : A -> Z) (key' : B -> Z) (f : A -> B) id l : (forall a, key' (f a) = key a) ->
  lookup key' id (map f l) = option_map f (lookup key id l).
Proof.
  intros Hf. induction l as [|x l IH]; cbn; [reflexivity|]. rewrite Hf. destruct (key x =? id); [reflexivity|exact IH].
Qed.

(** ** Unique ids *)
Lemma idSeen_spec x l : idSeen x l = true <-> In x l.
Proof.
  induction l as [|y l IH]; cbn; [split; [discriminate|tauto]|].
  rewrite orb_true_iff, IH, Z.eqb_eq. split; intros [H|H]; subst; auto.
Qed.
Lemma NoDup_app_single {A} (l : list A) x : NoDup (l ++ [x]) <-> NoDup l /\ ~ In x l.
Proof.
  split.
  - intros H. split; [apply (NoDup_remove_1 l [] x) in H; rewrite app_nil_r in H; exact H|].
    apply (NoDup_remove_2 l [] x) in H. rewrite app_nil_r in H. exact H.
  - intros [H N]. rewrite <- (rev_involutive (l ++ [x])). apply NoDup_rev. rewrite rev_app_distr. cbn. constructor.
    + rewrite <- in_rev. exact N.
    + apply NoDup_rev, H.
Qed.
Lemma uniqueFrom_spec rest : forall before, NoDup before -> (uniqueFrom before rest = true <-> NoDup (before ++ rest)).
Proof.
  induction rest as [|x rest IH]; intros before Hb; cbn.
  - rewrite app_nil_r. tauto.
  - destruct (idSeen x before) eqn:E.
    + split; [discriminate|]. intros H. apply idSeen_spec in E. apply (NoDup_remove_2 before rest x) in H.
      exfalso. apply H, in_or_app. left. exact E.
    + assert (N : ~ In x before) by (intros H; apply idSeen_spec in H; congruence).
      rewrite IH by (apply NoDup_app_single; auto). rewrite <- app_assoc. reflexivity.
Qed.
Lemma uniqueIds_spec ids : uniqueIds ids = true <-> NoDup ids.
Proof. apply (uniqueFrom_spec ids []). constructor. Qed.

(** ** Parameter-value lists *)
Lemma aget_nth {A} (l : list A) i a d : aget l i = Ok a -> 0 <= i < zlen l /\ nth (Z.to_nat i) l d = a.
Proof.
  unfold aget. destruct (i <? 0) eqn:E; [discriminate|]. destruct (nth_error l (Z.to_nat i)) eqn:N; [|discriminate].
  intros H. injection H as <-. pose proof (nth_error_nth _ _ d N). split; [|exact H].
  assert (nth_error l (Z.to_nat i) <> None) by congruence. apply nth_error_Some in H0. unfold zlen. lia.
Qed.
Lemma aget_in {A} (l : list A) i d : 0 <= i < zlen l -> aget l i = Ok (nth (Z.to_nat i) l d).
Proof.
  intros H. unfold aget. replace (i <? 0) with false by lia. unfold zlen in H.
  rewrite (nth_error_nth' l d) by lia. reflexivity.
Qed.
Lemma nth_upd {A} (l : list A) i x j d : 0 <= i < zlen l -> 0 <= j ->
  nth (Z.to_nat j) (zfirstn i l ++ x :: zskipn (i + 1) l) d = if j =? i then x else nth (Z.to_nat j) l d.
Proof.
  intros Hi Hj. unfold zfirstn, zskipn. unfold zlen in Hi.
  assert (L : length (firstn (Z.to_nat i) l) = Z.to_nat i) by (rewrite firstn_length; lia).
  destruct (j =? i) eqn:E.
  - rewrite app_nth2 by lia. rewrite L. replace (Z.to_nat j - Z.to_nat i)%nat with O by lia. reflexivity.
  - destruct (j <? i) eqn:E'.
    + rewrite app_nth1 by lia. rewrite <- (firstn_skipn (Z.to_nat i) l) at 2. rewrite app_nth1 by lia. reflexivity.
    + rewrite app_nth2 by lia. rewrite L.
      replace (Z.to_nat j - Z.to_nat i)%nat with (S (Z.to_nat j - Z.to_nat (i + 1)))%nat by lia. cbn [nth].
      rewrite <- (firstn_skipn (Z.to_nat (i + 1)) l) at 2. rewrite app_nth2; rewrite firstn_length; [|lia].
      f_equal. lia.
Qed.
Lemma zlen_upd {A} (l : list A) i x : 0 <= i < zlen l -> zlen (zfirstn i l ++ x :: zskipn (i + 1) l) = zlen l.
Proof. intros H. rewrite zlen_app, zlen_cons, zlen_firstn, zlen_skipn by lia. lia. Qed.
Lemma updItem_eq items i f d : 0 <= i < zlen items ->
  updItem items i f = zfirstn i items ++ f (nth (Z.to_nat i) items d) :: zskipn (i + 1) items.
Proof. intros H. unfold updItem. unfold zlen in H. rewrite (nth_error_nth' items d) by lia. reflexivity. Qed.

Lemma pvcheck_ok {B : Build} items i : 0 <= i < zlen items -> pvcheck (Some items) i = Ok (inr items).
Proof.
  intros H. unfold pvcheck. replace (0 <=? i) with true by lia. replace (i <? zlen items) with true by lia.
  cbn [rassert rbind]. replace (i <? 0) with false by lia. replace (zlen items - 1 <? i) with false by lia. reflexivity.
Qed.

(** ** Instrument parameters *)
Lemma paramIndexFrom_spec ps id : forall j, 0 <= j ->
  paramIndexFrom j ps id = -1 /\ ~ In id (map (fun p => fst (fst p)) ps) \/
  exists k, paramIndexFrom j ps id = j + k /\ 0 <= k < zlen ps /\ fst (fst (nth (Z.to_nat k) ps (0, 0, 0))) = id.
Proof.
  induction ps as [|p ps IH]; intros j Hj; cbn [paramIndexFrom].
  - left. split; [reflexivity|tauto].
  - destruct (fst (fst p) =? id) eqn:E.
    + right. exists 0. rewrite zlen_cons. pose proof (zlen_nonneg ps). split; [lia|]. split; [lia|]. cbn. lia.
    + destruct (IH (j + 1) ltac:(lia)) as [[H1 H2]|(k & H1 & H2 & H3)].
      * left. split; [exact H1|]. cbn. intros [H|H]; [lia|tauto].
      * right. exists (k + 1). rewrite zlen_cons. split; [lia|]. split; [lia|].
        replace (Z.to_nat (k + 1)) with (S (Z.to_nat k)) by lia. exact H3.
Qed.
Definition paramIds (format : Z) : list Z := map (fun p => fst (fst p)) (instParams format).
Lemma paramIndex_spec fmt id :
  paramIndex fmt id = -1 /\ ~ In id (paramIds fmt) \/
  0 <= paramIndex fmt id < zlen (instParams fmt) /\ fst (fst (nth (Z.to_nat (paramIndex fmt id)) (instParams fmt) (0, 0, 0))) = id.
Proof.
  unfold paramIndex. destruct (paramIndexFrom_spec (instParams fmt) id 0 ltac:(lia)) as [H|(k & H1 & H2 & H3)]; [left; exact H|].
  right. rewrite H1. replace (0 + k) with k by lia. split; [lia|exact H3].
Qed.
Lemma paramIndex_inj fmt p q : paramIndex fmt p <> -1 -> paramIndex fmt p = paramIndex fmt q -> p = q.
Proof.
  intros H E. destruct (paramIndex_spec fmt p) as [[H1 _]|[H1 H2]]; [congruence|].
  destruct (paramIndex_spec fmt q) as [[H3 _]|[H3 H4]]; [congruence|]. rewrite <- E in H4. congruence.
Qed.
Lemma param_types fmt j : 0 <= j < zlen (instParams fmt) -> snd (fst (nth (Z.to_nat j) (instParams fmt) (0, 0, 0))) = PVTYPE_LONG.
Proof.
  intros H. assert (F : forallb (fun p : Z * Z * Z => snd (fst p) =? PVTYPE_LONG) (instParams fmt) = true).
  { unfold instParams. destruct (_ || _); [reflexivity|]. destruct (fmt =? FILE_WAVE); reflexivity. }
  rewrite forallb_forall in F. apply Z.eqb_eq, F, nth_In. unfold zlen in H. lia.
Qed.

(** Every instrument has a value for every parameter of the format. *)
Definition wfInst (fmt : Z) (i : inst) : Prop := zlen (in_values i) = zlen (instParams fmt).
Definition wfh (h : handle) : Prop := Forall (wfInst (h_format h)) (h_insts h).

Definition obs (h : handle) (i p : Z) : Z :=
  match lookup in_id i (h_insts h) with
  | None => 0
  | Some ins => let j := paramIndex (h_format h) p in if j =? -1 then 0 else nth (Z.to_nat j) (in_values ins) 0
  end.

Lemma newOne : AUpvnew 1 = Some [PvItem PVTYPE_LONG 0 0].
Proof. reflexivity. Qed.
Lemma setLong_list {B : Build} param value :
  (do (l, _) <- AUpvsetparam (AUpvnew 1) 0 param; do (l, _) <- AUpvsetvaltype l 0 PVTYPE_LONG; do (l, _) <- AUpvsetval l 0 value; Ok l)
  = Ok (Some [PvItem PVTYPE_LONG param value]).
Proof. reflexivity. Qed.

Lemma getLong_spec {B : Build} h i p : wfh h -> afGetInstParamLong h i p = Ok (obs h i p).
Proof.
  intros W. unfold afGetInstParamLong, obs, instparamGet. change (AUpvsetparam (AUpvnew 1) 0 p) with (Ok (Some [PvItem PVTYPE_LONG p 0], 0)).
  cbn [rbind]. change (AUpvsetvaltype (Some [PvItem PVTYPE_LONG p 0]) 0 PVTYPE_LONG) with (Ok (Some [PvItem PVTYPE_LONG p 0], 0)).
  cbn [rbind]. destruct (lookup in_id i (h_insts h)) as [ins|] eqn:E; [|reflexivity].
  pose proof (lookup_Forall in_id _ _ _ _ W E) as Wi. unfold wfInst in Wi.
  change (AUpvgetmaxitems (Some [PvItem PVTYPE_LONG p 0])) with (Ok 1). cbn [rbind]. cbv zeta. change (Z.to_nat (if 1 <? 1 then 1 else 1)) with 1%nat. cbn [instparamGetLoop].
  change (AUpvgetparam (Some [PvItem PVTYPE_LONG p 0]) 0 0) with (Ok (0, p)). cbn [rbind]. cbv zeta.
  destruct (paramIndex (h_format h) p =? -1) eqn:Ej; [reflexivity|].
  destruct (paramIndex_spec (h_format h) p) as [[H1 _]|[H1 H2]]; [lia|].
  rewrite (aget_in (instParams (h_format h)) _ (0, 0, 0) H1). cbn [rbind]. rewrite (param_types _ _ H1).
  change (true && negb (PVTYPE_LONG =? PVTYPE_LONG)) with false. cbv iota.
  change (AUpvsetvaltype (Some [PvItem PVTYPE_LONG p 0]) 0 PVTYPE_LONG) with (Ok (Some [PvItem PVTYPE_LONG p 0], 0)). cbn [rbind].
  change (knownType PVTYPE_LONG) with true. cbv iota. rewrite (aget_in (in_values ins) _ 0) by lia. cbn [rbind].
  generalize (nth (Z.to_nat (paramIndex (h_format h) p)) (in_values ins) 0). intros v. reflexivity.
Qed.

Lemma setValue_obs h i p v i' p' : wfh h -> paramIndex (h_format h) p <> -1 ->
  obs (setValue h i (paramIndex (h_format h) p) v) i' p' =
  if (i' =? i) && (p' =? p) && (match lookup in_id i (h_insts h) with Some _ => true | None => false end) then v else obs h i' p'.
Proof.
  intros W Hj. unfold obs, setValue. cbn [h_insts h_format]. rewrite lookup_update by reflexivity.
  destruct (i' =? i) eqn:Ei; cbn [andb]; [|reflexivity]. replace i' with i by lia.
  destruct (lookup in_id i (h_insts h)) as [ins|] eqn:E; cbn [option_map]; [|rewrite andb_false_r; reflexivity].
  rewrite andb_true_r. cbn [in_values].
  pose proof (lookup_Forall in_id _ _ _ _ W E) as Wi. unfold wfInst in Wi.
  destruct (paramIndex_spec (h_format h) p) as [[H1 _]|[H1 H2]]; [lia|]. cbv zeta.
  destruct (paramIndex (h_format h) p' =? -1) eqn:Ej'.
  - destruct (p' =? p) eqn:Ep; [|reflexivity]. replace p' with p in Ej' by lia. lia.
  - destruct (paramIndex_spec (h_format h) p') as [[H3 _]|[H3 H4]]; [lia|].
    rewrite nth_upd by lia. destruct (p' =? p) eqn:Ep.
    + replace p' with p by lia. rewrite Z.eqb_refl. reflexivity.
    + destruct (paramIndex (h_format h) p' =? paramIndex (h_format h) p) eqn:Eq; [|reflexivity].
      exfalso. assert (p' = p); [|lia]. apply (paramIndex_inj (h_format h)); lia.
Qed.
Lemma setValue_wf h i j v : wfh h -> 0 <= j < zlen (instParams (h_format h)) -> wfh (setValue h i j v).
Proof.
  intros W Hj. unfold wfh, setValue in *. cbn [h_format h_insts]. apply Forall_update; [|exact W].
  intros a Ha. unfold wfInst in *. cbn [in_values]. rewrite zlen_upd by lia. exact Ha.
Qed.

(** what the handle is apart from the values of instruments *)
Definition sameButValues (h h' : handle) : Prop :=
  h_writing h' = h_writing h /\ h_format h' = h_format h /\ h_tracks h' = h_tracks h /\ h_misc h' = h_misc h /\
  map in_id (h_insts h') = map in_id (h_insts h) /\
  forall i, option_map in_loops (lookup in_id i (h_insts h')) = option_map in_loops (lookup in_id i (h_insts h)).
Lemma sameButValues_refl h : sameButValues h h.
Proof. repeat split. Qed.
Lemma sameButValues_trans a b c : sameButValues a b -> sameButValues b c -> sameButValues a c.
Proof.
  unfold sameButValues. intros (A1 & A2 & A3 & A4 & A5 & A6) (B1 & B2 & B3 & B4 & B5 & B6).
  repeat split; congruence.
Qed.
Lemma setValue_same h i j v : sameButValues h (setValue h i j v).
Proof.
  unfold sameButValues, setValue. cbn. repeat split.
  - apply map_key_update. reflexivity.
  - intros i'. rewrite lookup_update by reflexivity. destruct (i' =? i) eqn:E; [|reflexivity]. replace i' with i by lia.
    destruct (lookup in_id i (h_insts h)); reflexivity.
Qed.

(** one item of a list applied to the value of a parameter *)
Definition applyItem (fmt p : Z) (cur : Z) (it : pvitem) : Z :=
  if (pv_param it =? p) && (pv_type it =? PVTYPE_LONG) && rangeValid fmt p (pv_value it) then pv_value it else cur.

Lemma rangeValid_known fmt p v : (fmt =? FILE_AIFFC) || (fmt =? FILE_AIFF) || (fmt =? FILE_WAVE) = true ->
  rangeValid fmt p v = true -> In p (paramIds fmt).
Proof.
  unfold rangeValid, paramIds, instParams, FILE_AIFFC, FILE_AIFF, FILE_WAVE. intros F H.
  destruct ((fmt =? 1) || (fmt =? 2)) eqn:E; [|replace (fmt =? 4) with true in * by lia]; cbn.
  - repeat match type of H with (if ?b then _ else _) = true => destruct b eqn:? end; try discriminate; lia.
  - repeat match type of H with (if ?b then _ else _) = true => destruct b eqn:? end; try discriminate; lia.
Qed.
Lemma paramIds_known fmt p : In p (paramIds fmt) -> (fmt =? FILE_AIFFC) || (fmt =? FILE_AIFF) || (fmt =? FILE_WAVE) = true.
Proof. unfold paramIds, instParams. destruct ((fmt =? FILE_AIFFC) || (fmt =? FILE_AIFF)); [reflexivity|]. destruct (fmt =? FILE_WAVE); [reflexivity|cbn; tauto]. Qed.

Lemma setLoop_spec {B : Build} items instid : forall n h i,
  wfh h -> (exists ins, lookup in_id instid (h_insts h) = Some ins) -> 0 <= i -> i + Z.of_nat n <= zlen items ->
  exists h', instparamSetLoop n h instid (Some items) i = Ok h' /\ wfh h' /\ sameButValues h h' /\
    forall i' p', obs h' i' p' =
      if (i' =? instid) && (if in_dec Z.eq_dec p' (paramIds (h_format h)) then true else false)
      then fold_left (applyItem (h_format h) p') (firstn n (zskipn i items)) (obs h i' p') else obs h i' p'.
Proof.
  induction n as [|n IH]; intros h i W [ins Hins] Hi Hn; cbn [instparamSetLoop].
  - exists h. split; [reflexivity|]. split; [exact W|]. split; [apply sameButValues_refl|]. intros i' p'.
    cbn [firstn fold_left]. destruct (_ && _); reflexivity.
  - set (it := nth (Z.to_nat i) items (PvItem 0 0 0)).
    assert (Hi' : 0 <= i < zlen items) by lia.
    assert (Sk : zskipn i items = it :: zskipn (i + 1) items).
    { unfold it, zskipn. clear -Hi'. revert i Hi'. induction items as [|x items IH]; intros i Hi; [change (zlen (@nil pvitem)) with 0 in Hi; lia|].
      rewrite zlen_cons in Hi. destruct (Z.to_nat i) as [|k] eqn:E.
      - replace (Z.to_nat (i + 1)) with 1%nat by lia. reflexivity.
      - replace (Z.to_nat (i + 1)) with (S (Z.to_nat (i - 1 + 1))) by lia. cbn [skipn nth].
        replace k with (Z.to_nat (i - 1)) by lia. apply IH. lia. }
    assert (Gp : AUpvgetparam (Some items) i 0 = Ok (0, pv_param it)).
    { unfold AUpvgetparam. rewrite pvcheck_ok by lia. cbn [rbind]. rewrite (aget_in items i (PvItem 0 0 0)) by lia. reflexivity. }
    assert (Gt : AUpvgetvaltype (Some items) i 0 = Ok (0, pv_type it)).
    { unfold AUpvgetvaltype. rewrite pvcheck_ok by lia. cbn [rbind]. rewrite (aget_in items i (PvItem 0 0 0)) by lia. reflexivity. }
    assert (Gv : forall old, pv_type it = PVTYPE_LONG -> AUpvgetval (Some items) i old = Ok (0, pv_value it)).
    { intros old T. unfold AUpvgetval. rewrite pvcheck_ok by lia. cbn [rbind]. rewrite (aget_in items i (PvItem 0 0 0)) by lia. fold it. cbn [rbind]. rewrite T. reflexivity. }
    rewrite Gp. cbn [rbind]. cbv zeta. rewrite Sk. cbn [firstn fold_left].
    assert (Skip : (forall p', In p' (paramIds (h_format h)) -> forall cur, applyItem (h_format h) p' cur it = cur) ->
      exists h', instparamSetLoop n h instid (Some items) (i + 1) = Ok h' /\ wfh h' /\ sameButValues h h' /\
        forall i' p', obs h' i' p' =
          if (i' =? instid) && (if in_dec Z.eq_dec p' (paramIds (h_format h)) then true else false)
          then fold_left (applyItem (h_format h) p') (firstn n (zskipn (i + 1) items)) (applyItem (h_format h) p' (obs h i' p') it) else obs h i' p').
    { intros A. destruct (IH h (i + 1) W (ex_intro _ ins Hins) ltac:(lia) ltac:(lia)) as (h' & E & W' & S' & O').
      exists h'. split; [exact E|]. split; [exact W'|]. split; [exact S'|]. intros i' p'. rewrite O'.
      destruct (in_dec Z.eq_dec p' (paramIds (h_format h))) as [Hp|Hp]; [|rewrite !andb_false_r; reflexivity]. rewrite A by exact Hp. reflexivity. }
    destruct (paramIndex (h_format h) (pv_param it) =? -1) eqn:Ej.
    + apply Skip. intros p' Hp cur. unfold applyItem. destruct (pv_param it =? p') eqn:Ep; [|reflexivity].
      destruct (paramIndex_spec (h_format h) (pv_param it)) as [[_ N]|[H1 _]]; [|lia]. exfalso. apply N. replace (pv_param it) with p' by lia. exact Hp.
    + destruct (paramIndex_spec (h_format h) (pv_param it)) as [[H1 _]|[H1 H2]]; [lia|].
      assert (Kp : In (pv_param it) (paramIds (h_format h))).
      { unfold paramIds. rewrite <- H2 at 1. apply (in_map (fun p : Z * Z * Z => fst (fst p))), nth_In. unfold zlen in H1. lia. }
      unfold paramValid. rewrite (paramIds_known _ _ Kp). rewrite Gp. cbn [rbind]. rewrite Gt. cbn [rbind].
      destruct (pv_type it =? PVTYPE_LONG) eqn:Et; cbn [negb].
      2:{ cbn [rbind negb]. apply Skip. intros p' Hp cur. unfold applyItem. rewrite Et, andb_false_r. reflexivity. }
      rewrite (Gv 0) by lia. cbn [rbind]. destruct (rangeValid (h_format h) (pv_param it) (pv_value it)) eqn:Ev; cbn [negb rbind].
      2:{ apply Skip. intros p' Hp cur. unfold applyItem. destruct (pv_param it =? p') eqn:Ep; [|reflexivity].
          replace p' with (pv_param it) by lia. rewrite Ev, andb_false_r. reflexivity. }
      rewrite Hins. pose proof (lookup_Forall in_id _ _ _ _ W Hins) as Wi. unfold wfInst in Wi.
      rewrite (aget_in (in_values ins) _ 0) by lia. cbn [rbind].
      rewrite (aget_in (instParams (h_format h)) _ (0, 0, 0) H1). cbn [rbind]. rewrite (param_types _ _ H1). change (knownType PVTYPE_LONG) with true. cbv iota.
      rewrite Gv by lia. cbn [rbind].
      set (h1 := setValue h instid (paramIndex (h_format h) (pv_param it)) (pv_value it)).
      assert (W1 : wfh h1) by (apply setValue_wf; [exact W|exact H1]).
      assert (Hi1 : exists ins1, lookup in_id instid (h_insts h1) = Some ins1).
      { unfold h1, setValue. cbn [h_insts]. rewrite lookup_update by reflexivity. rewrite Z.eqb_refl, Hins. cbn. eauto. }
      destruct (IH h1 (i + 1) W1 Hi1 ltac:(lia) ltac:(lia)) as (h' & E & W' & S' & O').
      exists h'. split; [exact E|]. split; [exact W'|]. split; [eapply sameButValues_trans; [apply setValue_same|exact S']|].
      intros i' p'. rewrite O'. change (h_format h1) with (h_format h).
      unfold h1. rewrite setValue_obs by (try exact W; lia). rewrite Hins, andb_true_r.
      destruct (in_dec Z.eq_dec p' (paramIds (h_format h))) as [Hp|Hp].
      * destruct (i' =? instid) eqn:Ei; cbn [andb]; [|reflexivity]. f_equal. unfold applyItem.
        destruct (p' =? pv_param it) eqn:Ep; [replace (pv_param it =? p') with true by lia|replace (pv_param it =? p') with false by lia; reflexivity].
        replace p' with (pv_param it) by lia. rewrite Et, Ev. reflexivity.
      * rewrite !andb_false_r. destruct (p' =? pv_param it) eqn:Ep; [|rewrite andb_false_r; reflexivity].
        exfalso. apply Hp. replace p' with (pv_param it) by lia. exact Kp.
Qed.
