(** * afQuery: models query.cpp, the tables of units.cpp and compression.cpp:40-48

    [flac]: whether the library was configured with FLAC (ENABLE(FLAC), units.cpp:340-344).  Strings are named, not
    spelled out.  Allocation succeeds.  The leak of the list in afQueryLong/Double/Pointer is not modelled. *)
From Verif Require Import Prelude Metadata.

(** units.h:37-61, the fields queries read.  The entries of formats that are not implemented are zero after the first
    fields (units.cpp:146-160, 234-238). *)
Record unit := Unit {
  un_implemented : bool; un_sampfmt : Z; un_sampwidth : Z; un_comp : list Z;
  un_markers : Z; un_insts : Z; un_loops : Z; un_params : list (Z * Z * Z) }.
Definition COMP_ULAW := 502.  (* audiofile.h:187-209 *)
Definition COMP_ALAW := 503.
Definition COMP_IMA := 519.
Definition COMP_MSADPCM := 523.
Definition COMP_FLAC := 530.
Definition COMP_ALAC := 540.
Definition TWOSCOMP := 401.   (* audiofile.h:130 *)
Definition noUnit := Unit false 0 0 [] 0 0 0 [].
(** units.cpp:56-269; compression lists: Raw.cpp:51-55, AIFF.cpp:60-65, NeXT.cpp:44-48, WAVE.cpp:96-102,
    IRCAM.cpp:94-98, VOC.cpp:33-37, CAF.cpp:38-44, FLACFile.cpp:32-35 *)
Definition units : list unit :=
  [ Unit true TWOSCOMP 16 [COMP_ULAW; COMP_ALAW] 0 0 0 [];                                    (* 0 raw *)
    Unit true TWOSCOMP 16 [COMP_ULAW; COMP_ALAW; COMP_IMA] 65535 1 2 aiffInstParams;          (* 1 AIFF-C *)
    Unit true TWOSCOMP 16 [] 65535 1 2 aiffInstParams;                                        (* 2 AIFF *)
    Unit true TWOSCOMP 16 [COMP_ULAW; COMP_ALAW] 0 0 0 [];                                    (* 3 NeXT *)
    Unit true TWOSCOMP 16 [COMP_ULAW; COMP_ALAW; COMP_IMA; COMP_MSADPCM] 99999 1 99999 waveInstParams; (* 4 WAVE *)
    Unit true TWOSCOMP 16 [COMP_ULAW; COMP_ALAW] 0 0 0 [];                                    (* 5 IRCAM *)
    noUnit; noUnit; noUnit;                                                                   (* 6-8 *)
    Unit true TWOSCOMP 16 [] 0 0 0 [];                                                        (* 9 AVR *)
    Unit true TWOSCOMP 8 [] 0 0 0 [];                                                         (* 10 IFF *)
    Unit true TWOSCOMP 16 [] 0 0 0 [];                                                        (* 11 Sample Vision *)
    Unit true TWOSCOMP 16 [COMP_ULAW; COMP_ALAW] 0 0 0 [];                                    (* 12 VOC *)
    Unit true TWOSCOMP 16 [] 0 0 0 [];                                                        (* 13 NIST *)
    noUnit;                                                                                   (* 14 SoundFont 2 *)
    Unit true TWOSCOMP 16 [COMP_ULAW; COMP_ALAW; COMP_IMA; COMP_ALAC] 0 0 0 [];               (* 15 CAF *)
    Unit true TWOSCOMP 16 [COMP_FLAC] 0 0 0 [] ].                                             (* 16 FLAC *)
Definition NUM_UNITS := 17.   (* units.h:83 *)

(** units.cpp:271-368: (id, implemented) ; every unit has native format TWOSCOMP 16 *)
Definition compUnits (flac : bool) : list (Z * bool) :=
  [(0, true); (COMP_ULAW, true); (COMP_ALAW, true); (COMP_IMA, true); (COMP_MSADPCM, true); (COMP_FLAC, flac); (COMP_ALAC, true)].
(** compression.cpp:40-48 *)
Definition compUnit (flac : bool) (id : Z) : option (Z * bool) := find (fun u => fst u =? id) (compUnits flac).

Inductive textOf := Label | Name | Desc.
Inductive answer :=
| ANull                                   (* AU_NULL_PVLIST *)
| ALong (v : Z)                           (* _af_pv_long *)
| AInts (l : list Z)                      (* _af_pv_pointer to an array of ints *)
| AUnitText (k : textOf) (fmt : Z)        (* _af_pv_pointer to a string of the unit *)
| ACompText (k : textOf) (id : Z)
| AParamText (fmt idx : Z)
| AParam (id type default : Z).           (* query.cpp:338-342 *)

(** C++ conversion of bool to long, query.cpp:141 *)
Definition b2z (b : bool) : Z := if b then 1 else 0.
(** the check [arg < 0 || arg >= _AF_NUM_UNITS], query.cpp:124 *)
Definition badUnit (f : Z) : bool := (f <? 0) || (NUM_UNITS <=? f).
(** the loop of query.cpp:107-109 *)
Definition implementedIds : list Z := map fst (filter (fun p => un_implemented (snd p)) (combine (map Z.of_nat (seq 0 17)) units)).

(** query.cpp:82-211 *)
Definition queryFileFormat (arg1 arg2 arg3 : Z) : res answer :=
  if arg1 =? 605 then Ok (ALong (zlen implementedIds))
  else if arg1 =? 606 then Ok (match implementedIds with [] => ANull | l => AInts l end)
  else if arg1 =? 602 then if badUnit arg2 then Ok ANull else do _ <- aget units arg2; Ok (AUnitText Label arg2)
  else if arg1 =? 600 then if badUnit arg2 then Ok ANull else do _ <- aget units arg2; Ok (AUnitText Name arg2)
  else if arg1 =? 601 then if badUnit arg2 then Ok ANull else do _ <- aget units arg2; Ok (AUnitText Desc arg2)
  else if arg1 =? 613 then if badUnit arg2 then Ok (ALong 0) else do u <- aget units arg2; Ok (ALong (b2z (un_implemented u)))
  else if arg1 =? 623 then
    if badUnit arg3 then Ok ANull
    else if arg2 =? 604 then do u <- aget units arg3; Ok (ALong (un_sampfmt u)) else Ok ANull
  else if arg1 =? 622 then
    if badUnit arg3 then Ok ANull
    else if arg2 =? 604 then do u <- aget units arg3; Ok (ALong (un_sampwidth u)) else Ok ANull
  else if arg1 =? 624 then
    if badUnit arg3 then Ok ANull
    else if arg2 =? 650 then do u <- aget units arg3; Ok (ALong (zlen (un_comp u)))
    else if arg2 =? 651 then
      do u <- aget units arg3;
      if zlen (un_comp u) =? 0 then Ok ANull else Ok (AInts (un_comp u))
    else Ok ANull
  else Ok ANull.

(** query.cpp:265-350 *)
Definition queryInstParam (arg1 arg2 arg3 : Z) : res answer :=
  if arg1 =? 613 then if badUnit arg2 then Ok ANull else do u <- aget units arg2; Ok (ALong (b2z (negb (zlen (un_params u) =? 0))))
  else if arg1 =? 605 then if badUnit arg2 then Ok ANull else do u <- aget units arg2; Ok (ALong (zlen (un_params u)))
  else if arg1 =? 606 then
    if badUnit arg2 then Ok ANull
    else do u <- aget units arg2; if zlen (un_params u) =? 0 then Ok ANull else Ok (AInts (map (fun p => fst (fst p)) (un_params u)))
  else if arg1 =? 603 then
    if badUnit arg2 then Ok ANull
    else do u <- aget units arg2; let i := paramIndexFrom 0 (un_params u) arg3 in
         if i <? 0 then Ok ANull else do p <- aget (un_params u) i; Ok (ALong (snd (fst p)))
  else if arg1 =? 600 then
    if badUnit arg2 then Ok ANull
    else do u <- aget units arg2; let i := paramIndexFrom 0 (un_params u) arg3 in
         if i <? 0 then Ok ANull else do p <- aget (un_params u) i; Ok (AParamText arg2 i)
  else if arg1 =? 604 then
    if badUnit arg2 then Ok ANull
    else do u <- aget units arg2; let i := paramIndexFrom 0 (un_params u) arg3 in
         if 0 <=? i then do p <- aget (un_params u) i; Ok (AParam (fst (fst p)) (snd (fst p)) (snd p)) else Ok ANull
  else Ok ANull.

(** query.cpp:353-368 *)
Definition queryLoop (arg1 arg2 : Z) : res answer :=
  if badUnit arg2 then Ok ANull
  else if arg1 =? 613 then do u <- aget units arg2; Ok (ALong (b2z (negb (un_loops u =? 0))))
  else if arg1 =? 612 then do u <- aget units arg2; Ok (ALong (un_loops u))
  else Ok ANull.
(** query.cpp:371-388 *)
Definition queryInst (arg1 arg2 : Z) : res answer :=
  if arg1 =? 613 then if badUnit arg2 then Ok ANull else do u <- aget units arg2; Ok (ALong (b2z (negb (un_insts u =? 0))))
  else if arg1 =? 612 then if badUnit arg2 then Ok ANull else do u <- aget units arg2; Ok (ALong (un_insts u))
  else Ok ANull.
(** query.cpp:398-410: [arg2] is not checked *)
Definition queryMarker (arg1 arg2 : Z) : res answer :=
  if arg1 =? 613 then do u <- aget units arg2; Ok (ALong (b2z (negb (un_markers u =? 0))))
  else if arg1 =? 612 then do u <- aget units arg2; Ok (ALong (un_markers u))
  else Ok ANull.
(** query.cpp:413-482 *)
Definition queryCompression (flac : bool) (arg1 arg2 : Z) : res answer :=
  let ids := map fst (filter snd (compUnits flac)) in
  if arg1 =? 605 then Ok (ALong (zlen ids))
  else if arg1 =? 606 then Ok (AInts ids)
  else if arg1 =? 613 then Ok (ALong (match compUnit flac arg2 with Some u => b2z (snd u) | None => 0 end))
  else if arg1 =? 609 then Ok (match compUnit flac arg2 with Some _ => ALong TWOSCOMP | None => ANull end)
  else if arg1 =? 610 then Ok (match compUnit flac arg2 with Some _ => ALong 16 | None => ANull end)
  else if arg1 =? 602 then Ok (match compUnit flac arg2 with Some _ => ACompText Label arg2 | None => ANull end)
  else if arg1 =? 600 then Ok (match compUnit flac arg2 with Some _ => ACompText Name arg2 | None => ANull end)
  else if arg1 =? 601 then Ok (match compUnit flac arg2 with Some _ => ACompText Desc arg2 | None => ANull end)
  else Ok ANull.

(** query.cpp:53-79 *)
Definition afQuery (flac : bool) (querytype arg1 arg2 arg3 arg4 : Z) : res answer :=
  if querytype =? 505 then queryInst arg1 arg2
  else if querytype =? 500 then queryInstParam arg1 arg2 arg3
  else if querytype =? 507 then queryLoop arg1 arg2
  else if querytype =? 501 then queryFileFormat arg1 arg2 arg3
  else if querytype =? 502 then queryCompression flac arg1 arg2
  else if querytype =? 503 then Ok ANull
  else if querytype =? 504 then Ok ANull
  else if querytype =? 506 then queryMarker arg1 arg2
  else Ok ANull.
(** query.cpp:213-228 *)
Definition afQueryLong (flac : bool) (querytype arg1 arg2 arg3 arg4 : Z) : res Z :=
  do a <- afQuery flac querytype arg1 arg2 arg3 arg4;
  Ok (match a with
      | ALong v => v
      | AParam _ t v => if t =? PVTYPE_LONG then v else -1
      | _ => -1
      end).
