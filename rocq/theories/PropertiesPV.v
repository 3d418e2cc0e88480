(** * C47, C48: parameter-value lists and unique ids *)
From Verif Require Import Prelude PreludeFacts Metadata MetadataProofs.

(** ** C47: a parameter-value list behaves like an array of records *)

(** The calls of the AUpv interface on one list.  The getters are given what the caller's variable held before. *)
Inductive pcall :=
| PSetParam (i v : Z) | PSetType (i v : Z) | PSetVal (i v : Z)
| PGetParam (i old : Z) | PGetType (i old : Z) | PGetVal (i old : Z) | PGetMax.

Definition pvstep {B : Build} (l : pvlist) (c : pcall) : res (pvlist * (Z * Z)) :=
  match c with
  | PSetParam i v => do (l, code) <- AUpvsetparam l i v; Ok (l, (code, 0))
  | PSetType i v => do (l, code) <- AUpvsetvaltype l i v; Ok (l, (code, 0))
  | PSetVal i v => do (l, code) <- AUpvsetval l i v; Ok (l, (code, 0))
  | PGetParam i old => do r <- AUpvgetparam l i old; Ok (l, r)
  | PGetType i old => do r <- AUpvgetvaltype l i old; Ok (l, r)
  | PGetVal i old => do r <- AUpvgetval l i old; Ok (l, r)
  | PGetMax => do n <- AUpvgetmaxitems l; Ok (l, (n, 0))
  end.
Fixpoint pvrun {B : Build} (l : pvlist) (cs : list pcall) : res (list (Z * Z)) :=
  match cs with
  | [] => Ok []
  | c :: cs' => do (l, out) <- pvstep l c; do outs <- pvrun l cs'; Ok (out :: outs)
  end.

(** The specification: an array of [n] records as a function from indices, every call touching one field of one
    record; an index outside 0..n-1 gives BAD_PVITEM (-6), storing into an item whose type is not one of the three
    gives BAD_PVLIST (-5), and nothing else happens. *)
Record arrItem := Arr { a_type : Z; a_param : Z; a_value : Z }.
Definition arr := Z -> arrItem.
Definition put (a : arr) (i : Z) (x : arrItem) : arr := fun j => if j =? i then x else a j.
Definition hasType (x : arrItem) : bool := (1 <=? a_type x) && (a_type x <=? 3).
Definition aStep (n : Z) (a : arr) (c : pcall) : arr * (Z * Z) :=
  let inside i := (0 <=? i) && (i <? n) in
  match c with
  | PSetParam i v => if inside i then (put a i (Arr (a_type (a i)) v (a_value (a i))), (0, 0)) else (a, (-6, 0))
  | PSetType i v => if inside i then (put a i (Arr v (a_param (a i)) (a_value (a i))), (0, 0)) else (a, (-6, 0))
  | PSetVal i v =>
      if inside i then
        if hasType (a i) then (put a i (Arr (a_type (a i)) (a_param (a i)) v), (0, 0)) else (a, (-5, 0))
      else (a, (-6, 0))
  | PGetParam i old => (a, if inside i then (0, a_param (a i)) else (-6, old))
  | PGetType i old => (a, if inside i then (0, a_type (a i)) else (-6, old))
  | PGetVal i old => (a, if inside i then (0, if hasType (a i) then a_value (a i) else old) else (-6, old))
  | PGetMax => (a, (n, 0))
  end.
Fixpoint aRun (n : Z) (a : arr) (cs : list pcall) : list (Z * Z) :=
  match cs with
  | [] => []
  | c :: cs' => let (a', out) := aStep n a c in out :: aRun n a' cs'
  end.
(** the calls with which the assertions of aupv.c hold *)
Fixpoint legal (n : Z) (a : arr) (cs : list pcall) : Prop :=
  match cs with
  | [] => True
  | c :: cs' =>
      (match c with
       | PSetParam i _ | PSetType i _ | PGetParam i _ | PGetType i _ | PGetVal i _ => 0 <= i < n
       | PSetVal i _ => 0 <= i < n /\ hasType (a i) = true
       | PGetMax => True
       end) /\ legal n (fst (aStep n a c)) cs'
  end.

Definition repr (items : list pvitem) (a : arr) : Prop :=
  forall i, 0 <= i < zlen items ->
    let x := nth (Z.to_nat i) items (PvItem 0 0 0) in pv_type x = a_type (a i) /\ pv_param x = a_param (a i) /\ pv_value x = a_value (a i).

Lemma knownType_has t : knownType t = (1 <=? t) && (t <=? 3).
Proof. unfold knownType, PVTYPE_LONG, PVTYPE_DOUBLE, PVTYPE_PTR. lia. Qed.

Lemma upd_repr items a i f x : 0 <= i < zlen items -> repr items a ->
  (let y := f (nth (Z.to_nat i) items (PvItem 0 0 0)) in pv_type y = a_type x /\ pv_param y = a_param x /\ pv_value y = a_value x) ->
  repr (updItem items i f) (put a i x) /\ zlen (updItem items i f) = zlen items.
Proof.
  intros Hi R Hx. rewrite (updItem_eq items i f (PvItem 0 0 0)) by exact Hi. split.
  - intros j Hj. rewrite zlen_upd in Hj by exact Hi. cbv zeta. rewrite nth_upd by lia. unfold put.
    destruct (j =? i); [exact Hx|apply R; exact Hj].
  - apply zlen_upd, Hi.
Qed.

Definition ready (B : Build) (n : Z) (a : arr) (c : pcall) : Prop :=
  B = Release \/
  match c with
  | PSetParam i _ | PSetType i _ | PGetParam i _ | PGetType i _ | PGetVal i _ => 0 <= i < n
  | PSetVal i _ => 0 <= i < n /\ hasType (a i) = true
  | PGetMax => True
  end.

Lemma pvcheck_cases {B : Build} items i : (B = Release \/ 0 <= i < zlen items) ->
  pvcheck (Some items) i = Ok (if (0 <=? i) && (i <? zlen items) then inr items else inl BAD_PVITEM).
Proof.
  intros H. destruct ((0 <=? i) && (i <? zlen items)) eqn:E.
  - apply pvcheck_ok. lia.
  - destruct H as [->|H]; [|exfalso; lia]. unfold pvcheck, rassert. cbn [asserting Release].
    destruct (0 <=? i) eqn:E1, (i <? zlen items) eqn:E2; cbn [rbind]; try discriminate E;
      replace ((i <? 0) || (zlen items - 1 <? i)) with true by lia; reflexivity.
Qed.

Lemma pvstep_repr {B : Build} items a c : repr items a -> ready B (zlen items) a c ->
  exists items', pvstep (Some items) c = Ok (Some items', snd (aStep (zlen items) a c)) /\
    repr items' (fst (aStep (zlen items) a c)) /\ zlen items' = zlen items.
Proof.
  intros R Hr. unfold ready in Hr.
  destruct c as [i v|i v|i v|i old|i old|i old|]; cbn [pvstep aStep];
    try unfold AUpvsetparam; try unfold AUpvsetvaltype; try unfold AUpvsetval; try unfold AUpvgetparam; try unfold AUpvgetvaltype; try unfold AUpvgetval;
    try (rewrite pvcheck_cases by (destruct Hr as [Hr|Hr]; [left; exact Hr|right; lia]));
    try (destruct ((0 <=? i) && (i <? zlen items)) eqn:E; cbn [rbind fst snd]; [|exists items; split; [reflexivity|split; [exact R|reflexivity]]];
         assert (Hi : 0 <= i < zlen items) by lia; rewrite (aget_in items i (PvItem 0 0 0) Hi); cbn [rbind]; destruct (R i Hi) as (Rt & Rp & Rv)).
  - eexists. split; [reflexivity|]. apply (upd_repr items a i); [exact Hi|exact R|]. cbn. auto.
  - eexists. split; [reflexivity|]. apply (upd_repr items a i); [exact Hi|exact R|]. cbn. auto.
  - rewrite Rt, knownType_has. unfold hasType in *. destruct ((1 <=? a_type (a i)) && (a_type (a i) <=? 3)) eqn:T; cbn [fst snd].
    + eexists. split; [reflexivity|]. apply (upd_repr items a i); [exact Hi|exact R|]. cbn. auto.
    + destruct Hr as [->|Hr]; [|exfalso; destruct Hr; congruence]. cbn [rassert asserting Release rbind].
      exists items. split; [reflexivity|]. split; [exact R|reflexivity].
  - exists items. rewrite Rp. split; [reflexivity|]. split; [exact R|reflexivity].
  - exists items. rewrite Rt. split; [reflexivity|]. split; [exact R|reflexivity].
  - exists items. rewrite Rt, Rv, knownType_has. split; [reflexivity|]. split; [exact R|reflexivity].
  - exists items. cbn. split; [reflexivity|]. split; [exact R|reflexivity].
Qed.

Fixpoint readyAll (B : Build) (n : Z) (a : arr) (cs : list pcall) : Prop :=
  match cs with [] => True | c :: cs' => ready B n a c /\ readyAll B n (fst (aStep n a c)) cs' end.
Lemma pvrun_repr {B : Build} cs : forall items a, repr items a -> readyAll B (zlen items) a cs ->
  pvrun (Some items) cs = Ok (aRun (zlen items) a cs).
Proof.
  induction cs as [|c cs IH]; intros items a R Hr; [reflexivity|]. destruct Hr as [H1 H2]. cbn [pvrun aRun].
  destruct (pvstep_repr items a c R H1) as (items' & E & R' & L). rewrite E. cbn [rbind].
  destruct (aStep (zlen items) a c) as [a' out]. cbn [fst snd] in *. rewrite (IH items' a' R') by (rewrite L; exact H2).
  cbn [rbind]. rewrite L. reflexivity.
Qed.
Lemma new_repr n : 0 < n -> exists items, AUpvnew n = Some items /\ zlen items = n /\ repr items (fun _ => Arr PVTYPE_LONG 0 0).
Proof.
  intros Hn. unfold AUpvnew. replace (n <=? 0) with false by lia. eexists. split; [reflexivity|].
  split; [apply zlen_repeat; lia|]. intros i Hi. rewrite zlen_repeat in Hi by lia. cbv zeta. unfold zrepeat.
  replace (nth (Z.to_nat i) (repeat (PvItem PVTYPE_LONG 0 0) (Z.to_nat n)) (PvItem 0 0 0)) with (PvItem PVTYPE_LONG 0 0); [cbn; auto|].
  symmetry. rewrite nth_indep with (d' := PvItem PVTYPE_LONG 0 0) by (rewrite repeat_length; lia). apply nth_repeat.
Qed.

(** Every list made by AUpvnew(n) answers every sequence of calls as the array does; in builds without assertions
    whatever the calls, in builds with assertions when the indices are inside the list and no value is stored into an
    item of unknown type. *)
Theorem C47_list_is_an_array : forall (B : Build) n cs, 0 < n ->
  (B = Release \/ legal n (fun _ => Arr PVTYPE_LONG 0 0) cs) ->
  pvrun (AUpvnew n) cs = Ok (aRun n (fun _ => Arr PVTYPE_LONG 0 0) cs).
Proof.
  intros B n cs Hn Hl. destruct (new_repr n Hn) as (items & -> & L & R). rewrite <- L. apply pvrun_repr; [exact R|].
  rewrite L. clear L R. revert Hl. generalize (fun _ : Z => Arr PVTYPE_LONG 0 0). induction cs as [|c cs IH]; intros a Hl; cbn [readyAll]; [exact I|].
  split.
  - unfold ready. destruct Hl as [->|Hl]; [left; reflexivity|right; exact (proj1 Hl)].
  - apply IH. destruct Hl as [->|Hl]; [left; reflexivity|right; exact (proj2 Hl)].
Qed.
Print Assumptions C47_list_is_an_array.

(** The other calls are rejected: with assertions on, the first one ends the program. *)
Theorem C47_bad_item_rejected : forall (B : Build) n i v, 0 < n -> ~ 0 <= i < n ->
  let r := if asserting then Abort else Ok BAD_PVITEM in
  rmap snd (AUpvsetparam (AUpvnew n) i v) = r /\ rmap snd (AUpvsetvaltype (AUpvnew n) i v) = r /\
  rmap snd (AUpvsetval (AUpvnew n) i v) = r /\ rmap fst (AUpvgetparam (AUpvnew n) i v) = r /\
  rmap fst (AUpvgetvaltype (AUpvnew n) i v) = r /\ rmap fst (AUpvgetval (AUpvnew n) i v) = r.
Proof.
  intros B n i v Hn Hi. destruct (new_repr n Hn) as (items & -> & L & _). cbv zeta.
  assert (C : pvcheck (Some items) i = if asserting then Abort else Ok (inl BAD_PVITEM)).
  { unfold pvcheck, rassert. rewrite L. unfold asserting. destruct B, (0 <=? i) eqn:E1, (i <? n) eqn:E2; cbn [rbind]; try reflexivity; try (exfalso; lia);
      replace ((i <? 0) || (n - 1 <? i)) with true by lia; reflexivity. }
  unfold AUpvsetparam, AUpvsetvaltype, AUpvsetval, AUpvgetparam, AUpvgetvaltype, AUpvgetval. rewrite C.
  unfold asserting. destruct B; repeat split; reflexivity.
Qed.
Print Assumptions C47_bad_item_rejected.

Theorem C47_no_list_for_a_bad_size : forall n, n <= 0 -> AUpvnew n = None.
Proof. intros n H. unfold AUpvnew. replace (n <=? 0) with true by lia. reflexivity. Qed.
Print Assumptions C47_no_list_for_a_bad_size.

Example C47_satisfiable : legal 3 (fun _ => Arr PVTYPE_LONG 0 0)
  [PSetParam 1 301; PSetVal 1 77; PSetType 2 PVTYPE_DOUBLE; PSetVal 2 4614253070214989087; PGetParam 1 0; PGetVal 1 0; PGetVal 0 5] /\
  @pvrun Debug (AUpvnew 3) [PSetParam 1 301; PSetVal 1 77; PSetType 2 PVTYPE_DOUBLE; PSetVal 2 4614253070214989087; PGetParam 1 0; PGetVal 1 0; PGetVal 0 5]
  = Ok [(0, 0); (0, 0); (0, 0); (0, 0); (0, 301); (0, 77); (0, 0)].
Proof. split; [cbn; repeat split; lia|vm_compute; reflexivity]. Qed.

(** ** C48: id lists *)

(** A setup whose instruments and loops are observed through the lists the application gave. *)
Definition instIds (s : setup) : list Z := map is_id (su_insts s).
Definition loopIds (s : setup) (i : Z) : option (list Z) := option_map is_loops (lookup is_id i (su_insts s)).
Definition markIds (s : setup) (t : Z) : option (list Z) := option_map (fun t => map ms_id (ts_markers t)) (lookup ts_id t (su_tracks s)).
Definition miscIds (s : setup) : list Z := map xs_id (su_misc s).

(** afInitInstIDs takes a list exactly when its ids are distinct, and otherwise leaves the setup as it was. *)
Theorem C48_instrument_ids_partial : forall s ids,
  (NoDup ids -> instIds (afInitInstIDs s ids) = ids) /\ (~ NoDup ids -> afInitInstIDs s ids = s).
Proof.
  intros s ids. unfold afInitInstIDs. pose proof (uniqueIds_spec ids) as U. split; intros H.
  - rewrite (proj2 U H). unfold instIds. cbn. rewrite map_map. cbn. apply map_id.
  - destruct (uniqueIds ids) eqn:E; [|reflexivity]. exfalso. apply H, U. reflexivity.
Qed.
Print Assumptions C48_instrument_ids_partial.

Theorem C48_loop_ids_partial : forall s i ids, In i (instIds s) ->
  (NoDup ids -> loopIds (afInitLoopIDs s i ids) i = Some ids /\
     forall i', i' <> i -> loopIds (afInitLoopIDs s i ids) i' = loopIds s i') /\
  (~ NoDup ids -> afInitLoopIDs s i ids = s).
Proof.
  intros s i ids Hi. unfold afInitLoopIDs. pose proof (uniqueIds_spec ids) as U. split; intros H.
  - rewrite (proj2 U H). unfold loopIds. cbn [su_insts]. split.
    + rewrite lookup_update by reflexivity. rewrite Z.eqb_refl. apply lookup_In in Hi as [x ->]. reflexivity.
    + intros i' Hne. rewrite lookup_update by reflexivity. replace (i' =? i) with false by lia. reflexivity.
  - destruct (uniqueIds ids) eqn:E; [|reflexivity]. exfalso. apply H, U. reflexivity.
Qed.
Print Assumptions C48_loop_ids_partial.

(** Marker and miscellaneous ids are taken whatever the list is: duplicates are never refused. *)
Theorem C48_marker_ids_refuted : forall s t ids, markIds s t <> None -> markIds (afInitMarkIDs s t ids) t = Some ids.
Proof.
  intros s t ids H. unfold markIds, afInitMarkIDs in *. cbn [su_tracks]. rewrite lookup_update by reflexivity. rewrite Z.eqb_refl.
  destruct (lookup ts_id t (su_tracks s)); [|exfalso; apply H; reflexivity]. cbn. rewrite map_map. cbn. rewrite map_id. reflexivity.
Qed.
Print Assumptions C48_marker_ids_refuted.
Theorem C48_misc_ids_refuted : forall s ids, miscIds (afInitMiscIDs s ids) = ids.
Proof. intros s ids. unfold miscIds, afInitMiscIDs. cbn. rewrite map_map. cbn. apply map_id. Qed.
Print Assumptions C48_misc_ids_refuted.
(** With assertions compiled out any track id list is accepted (and ignored). *)
Theorem C48_track_ids_refuted : forall s ids, @afInitTrackIDs Release s ids = Ok s.
Proof. intros s ids. unfold afInitTrackIDs, rassert. cbn [asserting Release]. destruct (zlen ids =? 1), (match ids with i :: _ => i =? AF_DEFAULT_TRACK | [] => true end); reflexivity. Qed.
Print Assumptions C48_track_ids_refuted.

Example C48_satisfiable :
  let s := Setup FILE_AIFF [TrackSetup 1001 []] [InstSetup 2001 [1; 2]] [] in
  NoDup [7; 9; 8] /\ In 2001 (instIds s) /\ loopIds (afInitLoopIDs s 2001 [7; 9; 8]) 2001 = Some [7; 9; 8] /\
  afInitLoopIDs s 2001 [7; 9; 7] = s /\ markIds (afInitMarkIDs s 1001 [5; 5]) 1001 = Some [5; 5].
Proof. vm_compute. split; [repeat constructor; cbn; intuition discriminate|]. intuition. Qed.
