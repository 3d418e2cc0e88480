(** * C54: queries

    Arguments are arbitrary integers.  [UB] in the model stands for an access outside a table. *)
From Verif Require Import Prelude PreludeFacts Metadata MetadataProofs Query.

Definition AF_QUERYTYPE_MARK := 506.        (* audiofile.h:222 *)
Definition AF_QUERY_MAX_NUMBER := 612.      (* audiofile.h:242 *)
Definition AF_QUERY_SUPPORTED := 613.       (* audiofile.h:243 *)
Definition AF_QUERYTYPE_FILEFMT := 501.
Definition AF_QUERYTYPE_COMPRESSION := 502.
Definition AF_QUERYTYPE_INSTPARAM := 500.
Definition AF_QUERY_ID_COUNT := 605.
Definition AF_QUERY_IDS := 606.
Definition AF_QUERY_IMPLEMENTED := 613.
Definition AF_QUERY_COMPRESSION_TYPES := 624.
Definition AF_QUERY_VALUE_COUNT := 650.
Definition AF_QUERY_VALUES := 651.
Definition AF_QUERY_TYPE := 603.
(** the file formats of audiofile.h are the numbers 0..16 *)
Definition fileFormat (f : Z) : Prop := 0 <= f < 17.

Lemma units_len : zlen units = 17. Proof. reflexivity. Qed.
Lemma unit_ok f : badUnit f = false -> exists u, aget units f = Ok u.
Proof. unfold badUnit, NUM_UNITS. intros H. exists (nth (Z.to_nat f) units noUnit). apply aget_in. rewrite units_len. lia. Qed.
Lemma paramIndexFrom_bound ps : forall id j, 0 <= j -> 0 <= paramIndexFrom j ps id -> j <= paramIndexFrom j ps id < j + zlen ps.
Proof.
  induction ps as [|p ps IH]; intros id j Hj H; cbn [paramIndexFrom] in *; [lia|].
  rewrite zlen_cons. pose proof (zlen_nonneg ps). destruct (fst (fst p) =? id); [lia|]. specialize (IH id (j + 1)). lia.
Qed.
Lemma param_ok ps id : paramIndexFrom 0 ps id <? 0 = false -> exists p, aget ps (paramIndexFrom 0 ps id) = Ok p.
Proof.
  intros H. pose proof (paramIndexFrom_bound ps id 0 ltac:(lia) ltac:(lia)).
  exists (nth (Z.to_nat (paramIndexFrom 0 ps id)) ps (0,0,0)). apply aget_in. lia.
Qed.

Ltac qcase :=
  repeat match goal with
  | |- exists a, Ok _ = Ok a => eexists; reflexivity
  | H : badUnit ?f = false |- context [aget units ?f] =>
      let u := fresh "u" in let E := fresh "E" in destruct (unit_ok f H) as [u E]; rewrite E; cbn [rbind]
  | H : (paramIndexFrom 0 ?ps ?id <? 0) = false |- context [aget ?ps (paramIndexFrom 0 ?ps ?id)] =>
      let u := fresh "u" in let E := fresh "E" in destruct (param_ok ps id H) as [u E]; rewrite E; cbn [rbind]
  | |- context [if badUnit ?f then _ else _] => destruct (badUnit f) eqn:?
  | |- context [if ?a =? ?b then _ else _] => destruct (a =? b) eqn:?
  | |- context [if ?a <? ?b then _ else _] => destruct (a <? b) eqn:?
  | |- context [if ?a <=? ?b then _ else _] => destruct (a <=? b) eqn:?
  end.

(** Every query other than a marker query with a file format outside the range returns. *)
Theorem C54_queries_in_bounds_partial : forall flac querytype arg1 arg2 arg3 arg4,
  ~ (querytype = AF_QUERYTYPE_MARK /\ (arg1 = AF_QUERY_SUPPORTED \/ arg1 = AF_QUERY_MAX_NUMBER) /\ ~ fileFormat arg2) ->
  exists a, afQuery flac querytype arg1 arg2 arg3 arg4 = Ok a.
Proof.
  intros flac q a1 a2 a3 a4 H. unfold AF_QUERYTYPE_MARK, AF_QUERY_SUPPORTED, AF_QUERY_MAX_NUMBER, fileFormat in H. unfold afQuery.
  destruct (q =? 505); [unfold queryInst; qcase|].
  destruct (q =? 500).
  { unfold queryInstParam. cbn zeta. qcase; try (eexists; reflexivity).
    assert (P : (paramIndexFrom 0 (un_params u) a3 <? 0) = false) by lia.
    destruct (param_ok _ _ P) as [pp Ep]. rewrite Ep. cbn [rbind]. eexists; reflexivity. }
  destruct (q =? 507); [unfold queryLoop; qcase|].
  destruct (q =? 501); [unfold queryFileFormat; qcase|].
  destruct (q =? 502); [unfold queryCompression; cbn zeta; qcase|].
  destruct (q =? 503); [qcase|]. destruct (q =? 504); [qcase|].
  destruct (q =? 506) eqn:Eq; [|qcase].
  unfold queryMarker. destruct (badUnit a2) eqn:Eb.
  - unfold badUnit, NUM_UNITS in Eb. destruct (a1 =? 613) eqn:?; [exfalso; apply H; lia|].
    destruct (a1 =? 612) eqn:?; [exfalso; apply H; lia|]. eexists; reflexivity.
  - qcase.
Qed.
Print Assumptions C54_queries_in_bounds_partial.
(** AF_FILE_UNKNOWN (-1) as file format for a loop query: an error, not an access *)
Example C54_ex : afQuery false 507 AF_QUERY_SUPPORTED (-1) 0 0 = Ok ANull. Proof. reflexivity. Qed.

(** Marker queries index the table of file formats with the unchecked argument: every value outside the range, for
    instance AF_FILE_UNKNOWN = -1, reads outside the table. *)
Theorem C54_marker_query_refuted : forall flac arg1 fmt arg3 arg4,
  arg1 = AF_QUERY_SUPPORTED \/ arg1 = AF_QUERY_MAX_NUMBER -> ~ fileFormat fmt ->
  afQuery flac AF_QUERYTYPE_MARK arg1 fmt arg3 arg4 = UB.
Proof.
  intros flac a1 f a3 a4 Ha Hf. unfold fileFormat in Hf.
  assert (E : aget units f = UB). { unfold aget. destruct (f <? 0) eqn:E; [reflexivity|]. rewrite (proj2 (nth_error_None units (Z.to_nat f))); [reflexivity|]. change (length units) with 17%nat. lia. }
  destruct Ha as [-> | ->]; unfold afQuery, queryMarker; cbn; rewrite E; reflexivity.
Qed.
Print Assumptions C54_marker_query_refuted.

Definition is_implemented (flac : bool) (f : Z) : Prop := afQueryLong flac AF_QUERYTYPE_FILEFMT AF_QUERY_IMPLEMENTED f 0 0 = Ok 1.

Lemma in_17 f : fileFormat f -> In f (map Z.of_nat (seq 0 17)).
Proof. unfold fileFormat. intros H. apply in_map_iff. exists (Z.to_nat f). split; [lia|]. apply in_seq. lia. Qed.

(** The identifiers listed by the file-format id query are exactly the formats the library says are implemented, each
    once, and their number is what the count query says. *)
Theorem C54_format_ids : forall flac,
  exists ids, afQuery flac AF_QUERYTYPE_FILEFMT AF_QUERY_IDS 0 0 0 = Ok (AInts ids)
    /\ afQueryLong flac AF_QUERYTYPE_FILEFMT AF_QUERY_ID_COUNT 0 0 0 = Ok (zlen ids)
    /\ NoDup ids
    /\ forall f, In f ids <-> is_implemented flac f.
Proof.
  intros flac. exists implementedIds. split; [reflexivity|]. split; [reflexivity|]. split.
  { change implementedIds with [0;1;2;3;4;5;9;10;11;12;13;15;16]. repeat constructor; cbn; intuition discriminate. }
  intros f. unfold is_implemented. destruct (badUnit f) eqn:E.
  - unfold afQueryLong, afQuery. change (AF_QUERYTYPE_FILEFMT =? 505) with false. change (AF_QUERYTYPE_FILEFMT =? 500) with false.
    change (AF_QUERYTYPE_FILEFMT =? 507) with false. change (AF_QUERYTYPE_FILEFMT =? 501) with true. unfold queryFileFormat.
    change (AF_QUERY_IMPLEMENTED =? 605) with false. change (AF_QUERY_IMPLEMENTED =? 606) with false.
    change (AF_QUERY_IMPLEMENTED =? 602) with false. change (AF_QUERY_IMPLEMENTED =? 600) with false.
    change (AF_QUERY_IMPLEMENTED =? 601) with false. change (AF_QUERY_IMPLEMENTED =? 613) with true. cbv iota. rewrite E. cbn [rbind].
    split; [|discriminate]. unfold badUnit, NUM_UNITS in E.
    change implementedIds with [0;1;2;3;4;5;9;10;11;12;13;15;16]. cbn. intros H. lia.
  - assert (F : fileFormat f) by (unfold badUnit, NUM_UNITS in E; unfold fileFormat; lia). apply in_17 in F. clear E.
    change implementedIds with [0;1;2;3;4;5;9;10;11;12;13;15;16].
    cbn [seq map Z.of_nat Pos.of_succ_nat Pos.succ] in F. repeat (destruct F as [<-|F]; [cbn; intuition discriminate|]). destruct F.
Qed.
Print Assumptions C54_format_ids.

(** For every file format: the number of compression types is the length of the list of compression types (an empty
    list is reported as a null result). *)
Theorem C54_format_compression : forall flac f, fileFormat f ->
  exists ids,
    afQueryLong flac AF_QUERYTYPE_FILEFMT AF_QUERY_COMPRESSION_TYPES AF_QUERY_VALUE_COUNT f 0 = Ok (zlen ids)
    /\ afQuery flac AF_QUERYTYPE_FILEFMT AF_QUERY_COMPRESSION_TYPES AF_QUERY_VALUES f 0 = Ok (if zlen ids =? 0 then ANull else AInts ids)
    /\ NoDup ids
    /\ forall c, In c ids -> c <> 530 \/ flac = true -> afQueryLong flac AF_QUERYTYPE_COMPRESSION AF_QUERY_IMPLEMENTED c 0 0 = Ok 1.
Proof.
  intros flac f F. apply in_17 in F. cbn [seq map Z.of_nat Pos.of_succ_nat Pos.succ] in F.
  repeat (destruct F as [<-|F];
    [eexists; (split; [reflexivity|]); (split; [reflexivity|]);
     (split; [repeat constructor; cbn; intuition discriminate
             |cbn; intros c Hc Hf; repeat (destruct Hc as [<-|Hc]; [first [reflexivity | destruct Hf as [Hf| ->]; [contradiction|reflexivity]]|]);
              destruct Hc])|]).
  destruct F.
Qed.
Print Assumptions C54_format_compression.

(** A library built without FLAC still reports the FLAC file format as implemented, with a compression type that it
    reports as not implemented. *)
Theorem C54_flac_refuted :
  is_implemented false 16
  /\ afQuery false AF_QUERYTYPE_FILEFMT AF_QUERY_COMPRESSION_TYPES AF_QUERY_VALUES 16 0 = Ok (AInts [530])
  /\ afQueryLong false AF_QUERYTYPE_COMPRESSION AF_QUERY_IMPLEMENTED 530 0 0 = Ok 0.
Proof. repeat split. Qed.
Print Assumptions C54_flac_refuted.

(** Compression ids: listed iff implemented; the count is the length. *)
Theorem C54_compression_ids : forall flac,
  exists ids, afQuery flac AF_QUERYTYPE_COMPRESSION AF_QUERY_IDS 0 0 0 = Ok (AInts ids)
    /\ afQueryLong flac AF_QUERYTYPE_COMPRESSION AF_QUERY_ID_COUNT 0 0 0 = Ok (zlen ids)
    /\ NoDup ids
    /\ forall c, In c ids <-> afQueryLong flac AF_QUERYTYPE_COMPRESSION AF_QUERY_IMPLEMENTED c 0 0 = Ok 1.
Proof.
  intros flac. eexists. split; [reflexivity|]. split; [reflexivity|].
  assert (G : forall c, afQueryLong flac AF_QUERYTYPE_COMPRESSION AF_QUERY_IMPLEMENTED c 0 0
              = Ok (match compUnit flac c with Some u => b2z (snd u) | None => 0 end)) by (intros c; reflexivity).
  split; [destruct flac; cbn; repeat constructor; cbn; intuition discriminate|].
  intros c. rewrite G. unfold compUnit.
  unfold compUnits, COMP_ULAW, COMP_ALAW, COMP_IMA, COMP_MSADPCM, COMP_FLAC, COMP_ALAC.
  cbn [find fst snd].
  destruct (0 =? c) eqn:E0. { replace c with 0 by lia. destruct flac; cbn; intuition. }
  destruct (502 =? c) eqn:E1. { replace c with 502 by lia. destruct flac; cbn; intuition. }
  destruct (503 =? c) eqn:E2. { replace c with 503 by lia. destruct flac; cbn; intuition. }
  destruct (519 =? c) eqn:E3. { replace c with 519 by lia. destruct flac; cbn; intuition. }
  destruct (523 =? c) eqn:E4. { replace c with 523 by lia. destruct flac; cbn; intuition. }
  destruct (530 =? c) eqn:E5. { replace c with 530 by lia. destruct flac; cbn; intuition discriminate. }
  destruct (540 =? c) eqn:E6. { replace c with 540 by lia. destruct flac; cbn; intuition. }
  split; [|discriminate]. intros H. exfalso. destruct flac; cbn in H; lia.
Qed.
Print Assumptions C54_compression_ids.

(** Instrument parameters of a file format: the count is the length of the list, and exactly the listed ids have a
    type. *)
Theorem C54_instrument_parameters : forall flac f, fileFormat f ->
  exists ids,
    afQueryLong flac AF_QUERYTYPE_INSTPARAM AF_QUERY_ID_COUNT f 0 0 = Ok (zlen ids)
    /\ afQuery flac AF_QUERYTYPE_INSTPARAM AF_QUERY_IDS f 0 0 = Ok (if zlen ids =? 0 then ANull else AInts ids)
    /\ NoDup ids
    /\ forall id, In id ids <-> afQueryLong flac AF_QUERYTYPE_INSTPARAM AF_QUERY_TYPE f id 0 = Ok 1.
Proof.
  assert (G : forall flac f u, aget units f = Ok u -> badUnit f = false -> (forall p, In p (un_params u) -> snd (fst p) = 1) ->
    NoDup (map (fun p => fst (fst p)) (un_params u)) ->
    exists ids,
    afQueryLong flac AF_QUERYTYPE_INSTPARAM AF_QUERY_ID_COUNT f 0 0 = Ok (zlen ids)
    /\ afQuery flac AF_QUERYTYPE_INSTPARAM AF_QUERY_IDS f 0 0 = Ok (if zlen ids =? 0 then ANull else AInts ids)
    /\ NoDup ids
    /\ forall id, In id ids <-> afQueryLong flac AF_QUERYTYPE_INSTPARAM AF_QUERY_TYPE f id 0 = Ok 1).
  { intros flac f u Eu Eb HT HN. exists (map (fun p => fst (fst p)) (un_params u)).
    unfold afQueryLong, afQuery, queryInstParam.
    change (AF_QUERYTYPE_INSTPARAM =? 505) with false. change (AF_QUERYTYPE_INSTPARAM =? 500) with true.
    change (AF_QUERY_ID_COUNT =? 613) with false. change (AF_QUERY_ID_COUNT =? 605) with true.
    change (AF_QUERY_IDS =? 613) with false. change (AF_QUERY_IDS =? 605) with false. change (AF_QUERY_IDS =? 606) with true.
    change (AF_QUERY_TYPE =? 613) with false. change (AF_QUERY_TYPE =? 605) with false. change (AF_QUERY_TYPE =? 606) with false.
    change (AF_QUERY_TYPE =? 603) with true. cbv iota. rewrite Eb, Eu. cbn [rbind].
    assert (L : zlen (map (fun p : Z*Z*Z => fst (fst p)) (un_params u)) = zlen (un_params u)) by (unfold zlen; rewrite map_length; reflexivity).
    rewrite L. split; [reflexivity|]. split; [destruct (zlen (un_params u) =? 0); reflexivity|]. split; [exact HN|].
    intros id. cbn zeta.
    assert (K : forall ps j, 0 <= j -> (forall p, In p ps -> snd (fst p) = 1) ->
       if paramIndexFrom j ps id <? 0 then ~ In id (map (fun p : Z*Z*Z => fst (fst p)) ps)
       else In id (map (fun p : Z*Z*Z => fst (fst p)) ps)).
    { induction ps as [|p ps IH]; intros j Hj Hp; cbn [paramIndexFrom map].
      - destruct (-1 <? 0) eqn:?; [intros []|lia].
      - destruct (fst (fst p) =? id) eqn:E.
        + destruct (j <? 0) eqn:?; [lia|]. left. lia.
        + specialize (IH (j+1) ltac:(lia) ltac:(intros; apply Hp; right; assumption)).
          destruct (paramIndexFrom (j+1) ps id <? 0); [intros [X|X]; [lia|tauto]|right; exact IH]. }
    specialize (K (un_params u) 0 ltac:(lia) HT).
    destruct (paramIndexFrom 0 (un_params u) id <? 0) eqn:E; cbn [rbind].
    - split; [tauto|discriminate].
    - pose proof (paramIndexFrom_bound (un_params u) id 0 ltac:(lia) ltac:(lia)) as Bd.
      rewrite (aget_in _ _ (0,0,0)) by lia. cbn [rbind].
      rewrite HT; [split; [reflexivity|intros _; exact K]|]. apply nth_In. unfold zlen in Bd. lia. }
  intros flac f F. apply in_17 in F. cbn [seq map Z.of_nat Pos.of_succ_nat Pos.succ] in F.
  repeat (destruct F as [<-|F];
    [eapply G; [reflexivity|reflexivity|cbn; intros p Hp; repeat (destruct Hp as [<-|Hp]; [reflexivity|]); destruct Hp
               |repeat constructor; cbn; intuition discriminate]|]).
  destruct F.
Qed.
Print Assumptions C54_instrument_parameters.
