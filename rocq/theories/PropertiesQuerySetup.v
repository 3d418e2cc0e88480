(** * C54: what the queries promise about a file format is what a file setup of that format gets

    The query functions (query.cpp) and the completeSetup functions (one per file format) have separate tables; these theorems say that
    the tables agree. *)
From Verif Require Import Prelude PreludeFacts ByteOrder Convert Float HeaderIO Setup SetupSpec.
From Verif Require Query PropertiesQuery PropertiesSetup.
Import PropertiesQuery(AF_QUERYTYPE_MARK, AF_QUERYTYPE_FILEFMT, AF_QUERYTYPE_INSTPARAM, AF_QUERY_SUPPORTED, AF_QUERY_MAX_NUMBER,
  AF_QUERY_ID_COUNT, AF_QUERY_COMPRESSION_TYPES, AF_QUERY_VALUES, fileFormat).
Definition AF_QUERYTYPE_INST := 505.         (* audiofile.h:221 *)
Definition AF_QUERYTYPE_LOOP := 507.         (* audiofile.h:223 *)
Definition AF_QUERY_DEFAULT := 604.          (* audiofile.h:234 *)
Definition AF_QUERY_SAMPLE_FORMATS := 623.   (* audiofile.h:253 *)
Definition AF_QUERY_SAMPLE_SIZES := 622.     (* audiofile.h:252 *)

(** audiofile.h:160-180: AF_FILE_RAWDATA ... AF_FILE_CAF *)
Definition formatNumber (ff : ffmt) : Z :=
  match ff with
  | F_RAW => 0 | F_AIFFC => 1 | F_AIFF => 2 | F_NEXT => 3 | F_WAVE => 4 | F_IRCAM => 5 | F_AVR => 9 | F_IFF => 10 | F_SMP => 11 | F_VOC => 12
  | F_NIST => 13 | F_CAF => 15
  end.
(** audiofile.h:187-209: AF_COMPRESSION_... *)
Definition compressionNumber (c : compression) : Z :=
  match c with CNone => 0 | CUlaw => 502 | CAlaw => 503 | CIMA => 519 | CMSADPCM => 523 | CFLAC => 530 | CALAC => 540 end.
(** A new file setup, after the given calls, opened for writing. *)
Definition opened {B : Build} (host : order) (calls : list scall) : res (option (aformat * aformat)) :=
  openWrite host (fold_left scallStep calls (newSetup host)).

(** The library says that it supports markers (instruments, loops) in a file format exactly when the largest number of them is not zero. *)
Theorem C54_supported_iff_maximum : forall flac what f,
  In what [AF_QUERYTYPE_MARK; AF_QUERYTYPE_INST; AF_QUERYTYPE_LOOP] -> fileFormat f ->
  exists n, Query.afQueryLong flac what AF_QUERY_MAX_NUMBER f 0 0 = Ok n /\ 0 <= n /\
    Query.afQueryLong flac what AF_QUERY_SUPPORTED f 0 0 = Ok (if n =? 0 then 0 else 1).
Proof.
  intros flac w f Hw F. apply PropertiesQuery.in_17 in F. cbn [seq map Z.of_nat Pos.of_succ_nat Pos.succ] in F.
  destruct Hw as [<-|[<-|[<-|[]]]]; repeat (destruct F as [<-|F]; [eexists; split; [cbv; reflexivity|]; split; [discriminate|reflexivity]|]); destruct F.
Qed.
Print Assumptions C54_supported_iff_maximum.

Theorem C54_parameters_supported_iff_any : forall flac f, fileFormat f ->
  exists n, Query.afQueryLong flac AF_QUERYTYPE_INSTPARAM AF_QUERY_ID_COUNT f 0 0 = Ok n /\ 0 <= n /\
    Query.afQueryLong flac AF_QUERYTYPE_INSTPARAM AF_QUERY_SUPPORTED f 0 0 = Ok (if n =? 0 then 0 else 1).
Proof.
  intros flac f F. apply PropertiesQuery.in_17 in F. cbn [seq map Z.of_nat Pos.of_succ_nat Pos.succ] in F.
  repeat (destruct F as [<-|F]; [eexists; split; [cbv; reflexivity|]; split; [discriminate|reflexivity]|]); destruct F.
Qed.
Print Assumptions C54_parameters_supported_iff_any.

(** A file setup that asks for a file format and nothing else about the samples gets the sample format and width that the library
    calls the default ones of that file format. *)
Theorem C54_default_format_is_what_a_setup_gets : forall (B : Build) flac host ff,
  exists w f v, opened host [SFileFormat ff; SChannels 1] = Ok (Some (f, v)) /\ a_sf f = TwosComp /\ a_width f = w /\
    Query.afQueryLong flac AF_QUERYTYPE_FILEFMT AF_QUERY_SAMPLE_FORMATS AF_QUERY_DEFAULT (formatNumber ff) 0 = Ok 401 /\  (* AF_SAMPFMT_TWOSCOMP *)
    Query.afQueryLong flac AF_QUERYTYPE_FILEFMT AF_QUERY_SAMPLE_SIZES AF_QUERY_DEFAULT (formatNumber ff) 0 = Ok w.
Proof.
  intros B flac host ff.
  assert (G : exists f v, opened host [SFileFormat ff; SChannels 1] = Ok (Some (f, v)) /\ a_sf f = TwosComp /\ a_width f = match ff with F_IFF => 8 | _ => 16 end)
    by (destruct B, host, ff; eexists; eexists; (split; [vm_compute; reflexivity|split; reflexivity])).
  destruct G as (f & v & H1 & H2 & H3). exists (match ff with F_IFF => 8 | _ => 16 end), f, v.
  split; [exact H1|]. split; [exact H2|]. split; [exact H3|]. destruct ff; split; reflexivity.
Qed.
Print Assumptions C54_default_format_is_what_a_setup_gets.

(** A setup with markers (with an instrument) is accepted for exactly the file formats that are said to support markers (instruments). *)
Theorem C54_markers_supported_iff_accepted : forall (B : Build) flac host ff,
  Query.afQueryLong flac AF_QUERYTYPE_MARK AF_QUERY_SUPPORTED (formatNumber ff) 0 0 = Ok 1 <->
  exists f v, opened host [SFileFormat ff; SChannels 1; SMarkIDs 1] = Ok (Some (f, v)).
Proof.
  intros B flac host ff. destruct B, host, ff; (split; [intros H; first [discriminate H | eexists; eexists; vm_compute; reflexivity]
    |intros (f & v & H); first [reflexivity | vm_compute in H; discriminate H]]).
Qed.
Print Assumptions C54_markers_supported_iff_accepted.
Theorem C54_instruments_supported_iff_accepted : forall (B : Build) flac host ff,
  Query.afQueryLong flac AF_QUERYTYPE_INST AF_QUERY_SUPPORTED (formatNumber ff) 0 0 = Ok 1 <->
  exists f v, opened host [SFileFormat ff; SChannels 1; SInstIDs [1]] = Ok (Some (f, v)).
Proof.
  intros B flac host ff. destruct B, host, ff; (split; [intros H; first [discriminate H | eexists; eexists; vm_compute; reflexivity]
    |intros (f & v & H); first [reflexivity | vm_compute in H; discriminate H]]).
Qed.
Print Assumptions C54_instruments_supported_iff_accepted.
(** ... and no setup that asks for more instruments than the largest number is accepted. *)
Theorem C54_no_more_instruments_than_said : forall (B : Build) flac host ff ids f v,
  NoDup ids -> opened host [SFileFormat ff; SChannels 1; SInstIDs ids] = Ok (Some (f, v)) ->
  exists n, Query.afQueryLong flac AF_QUERYTYPE_INST AF_QUERY_MAX_NUMBER (formatNumber ff) 0 0 = Ok n /\ zlen ids <= n.
Proof.
  intros B flac host ff ids f v Hn H. exists (match ff with F_AIFF | F_AIFFC | F_WAVE => 1 | _ => 0 end).
  split; [destruct ff; reflexivity|].
  destruct ids as [|i ids]; [destruct ff; cbv; discriminate|].
  set (s := fold_left scallStep [SFileFormat ff; SChannels 1] (newSetup host)).
  assert (D : distinct (i :: ids) = true).
  { clear - Hn. induction Hn as [|x l Hx Hl IH]; [reflexivity|]. cbn [distinct]. rewrite IH, andb_true_r. apply negb_true_iff.
    destruct (existsb (Z.eqb x) l) eqn:E; [|reflexivity]. apply existsb_exists in E. destruct E as (y & Hy & E). assert (x = y) by lia. subst y. contradiction. }
  assert (M : made host [SFileFormat ff; SChannels 1; SInstIDs (i :: ids)] (fold_left scallStep [SFileFormat ff; SChannels 1; SInstIDs (i :: ids)] (newSetup host))).
  { split; [|reflexivity]. intros c [<-|[<-|[<-|[]]]]; cbn; try lia; exact I. }
  destruct (PropertiesSetup.C62_metadata_has_a_place B host _ _ _ _ M H) as (_ & _ & HI & _).
  remember (fold_left scallStep [SFileFormat ff; SChannels 1; SInstIDs (i :: ids)] (newSetup host)) as t eqn:Et.
  cbn [fold_left] in Et. change (scallStep (scallStep (newSetup host) (SFileFormat ff)) (SChannels 1)) with s in Et. unfold scallStep in Et. rewrite D in Et. cbn [negb] in Et.
  assert (E1 : su_file t = ff) by (rewrite Et; reflexivity).
  assert (E2 : su_instSet t = true) by (rewrite Et; reflexivity).
  assert (E3 : su_inst t = map (fun k => (k, 2)) (i :: ids)) by (rewrite Et; reflexivity).
  specialize (HI E2). rewrite E3, E1 in HI. destruct HI as [Hf Hl]; [discriminate|].
  unfold zlen in Hl |- *. rewrite map_length in Hl. rewrite Hl. cbn in Hf. destruct Hf as [<-|[<-|[<-|[]]]]; discriminate.
Qed.
Print Assumptions C54_no_more_instruments_than_said.

(** Every compression that is listed for a file format can be asked for, and the file gets it. *)
Theorem C54_listed_compression_is_accepted : forall (B : Build) flac host ff c ids,
  Query.afQuery flac AF_QUERYTYPE_FILEFMT AF_QUERY_COMPRESSION_TYPES AF_QUERY_VALUES (formatNumber ff) 0 = Ok (Query.AInts ids) ->
  In (compressionNumber c) ids ->
  exists f v, opened host [SFileFormat ff; SChannels 1; SCompression c] = Ok (Some (f, v)) /\ a_comp f = c.
Proof.
  intros B flac host ff c ids H Hin.
  assert (E : ids = match ff with F_RAW | F_NEXT | F_IRCAM | F_VOC => [502; 503] | F_AIFFC => [502; 503; 519] | F_WAVE => [502; 503; 519; 523]
                                | F_CAF => [502; 503; 519; 540] | _ => [] end) by (destruct ff; vm_compute in H; congruence).
  subst ids. clear H.
  destruct B, host, ff; cbn in Hin; try contradiction; destruct c; try (exfalso; cbn in Hin; lia); (eexists; eexists; split; [vm_compute; reflexivity|reflexivity]).
Qed.
Print Assumptions C54_listed_compression_is_accepted.
(** ... but not every compression that a file gets is listed: a NIST file can be asked for mu-law (the release build accepts it), and the
    library lists no compression for NIST files. *)
Theorem C54_nist_compression_not_listed_refuted : forall flac host,
  (exists f v, opened (B := Release) host [SFileFormat F_NIST; SChannels 1; SCompression CUlaw] = Ok (Some (f, v)) /\ a_comp f = CUlaw) /\
  Query.afQuery flac AF_QUERYTYPE_FILEFMT AF_QUERY_COMPRESSION_TYPES AF_QUERY_VALUES (formatNumber F_NIST) 0 = Ok Query.ANull.
Proof. intros flac host. split; [destruct host; (eexists; eexists; split; [vm_compute; reflexivity|reflexivity])|reflexivity]. Qed.
Print Assumptions C54_nist_compression_not_listed_refuted.

(** The hypotheses are met: WAVE lists MS ADPCM, AIFF accepts an instrument. *)
Example C54_setup_example : forall B : Build,
  Query.afQuery false AF_QUERYTYPE_FILEFMT AF_QUERY_COMPRESSION_TYPES AF_QUERY_VALUES (formatNumber F_WAVE) 0 = Ok (Query.AInts [502; 503; 519; 523]) /\
  exists f v, opened LittleEndian [SFileFormat F_AIFF; SChannels 1; SInstIDs [7]] = Ok (Some (f, v)).
Proof. intros B. split; [reflexivity|]. destruct B; eexists; eexists; vm_compute; reflexivity. Qed.
