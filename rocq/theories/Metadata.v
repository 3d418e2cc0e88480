(** * Markers, loops, instruments, miscellaneous chunks and parameter-value lists

    Models aupv.c, Marker.cpp, Loop.cpp, Instrument.cpp, Miscellaneous.cpp, Track.cpp:35-60,133-173,
    FileHandle.cpp:166-348 and util.cpp:369-384.  Error reports (_af_error) are not modelled except through the
    returned values; handles and setups are assumed valid (_af_filehandle_ok, _af_filesetup_ok); allocation
    succeeds.  A C array with its count field is a list. *)
From Verif Require Import Prelude.

(** ** Tables searched by id: the first entry with the id *)
Section Table.
  Context {A : Type} (key : A -> Z).
  (** the loops of FileHandle.cpp:166-175, 199-220, Track.cpp:133-143, Instrument.cpp:293-302 *)
  Fixpoint lookup (id : Z) (l : list A) : option A :=
    match l with
    | [] => None
    | a :: l' => if key a =? id then Some a else lookup id l'
    end.
  (** writing through the pointer the loop returned *)
  Fixpoint update (id : Z) (f : A -> A) (l : list A) : list A :=
    match l with
    | [] => []
    | a :: l' => if key a =? id then f a :: l' else a :: update id f l'
    end.
End Table.

(** ** Parameter-value lists, aupv.c *)

(** aupvinternal.h:31-52.  The value is a union of long, double and void*, all of eight bytes (LP64): its bits. *)
Record pvitem := PvItem { pv_type : Z; pv_param : Z; pv_value : Z }.
Definition PVTYPE_LONG := 1.    (* aupvlist.h:43-45 *)
Definition PVTYPE_DOUBLE := 2.
Definition PVTYPE_PTR := 3.
Definition BAD_PVLIST := -5.    (* aupvinternal.h:61-62 *)
Definition BAD_PVITEM := -6.

(** [None] is AU_NULL_PVLIST.  A list that exists was made by AUpvnew, so its valid fields are set and its count is
    the length of its array. *)
Definition pvlist := option (list pvitem).

(** aupv.c:37-72 *)
Definition AUpvnew (maxitems : Z) : pvlist :=
  if maxitems <=? 0 then None else Some (zrepeat (PvItem PVTYPE_LONG 0 0) maxitems).

(** aupv.c:74-84 *)
Definition AUpvgetmaxitems {B : Build} (l : pvlist) : res Z :=
  match l with
  | None => do _ <- rassert false; Ok BAD_PVLIST
  | Some items => Ok (zlen items)
  end.

(** The checks every item accessor starts with, aupv.c:109-121 (and 129-141, 149-161, 184-196, 204-216, 224-236):
    [inl code] when the function returns the code early.  With a null list the asserts on its fields are only
    reached when assert(list) has failed. *)
Definition pvcheck {B : Build} (l : pvlist) (item : Z) : res (Z + list pvitem) :=
  match l with
  | None => do _ <- rassert false; Ok (inl BAD_PVLIST)
  | Some items =>
      do _ <- rassert (0 <=? item);
      do _ <- rassert (item <? zlen items);
      if (item <? 0) || (zlen items - 1 <? item) then Ok (inl BAD_PVITEM) else Ok (inr items)
  end.

Definition updItem (items : list pvitem) (item : Z) (f : pvitem -> pvitem) : list pvitem :=
  match nth_error items (Z.to_nat item) with
  | Some it => zfirstn item items ++ f it :: zskipn (item + 1) items
  | None => items
  end.

(** aupv.c:107-125 *)
Definition AUpvsetparam {B : Build} (l : pvlist) (item param : Z) : res (pvlist * Z) :=
  do c <- pvcheck l item;
  match c with
  | inl code => Ok (l, code)
  | inr items => do _ <- aget items item; Ok (Some (updItem items item (fun it => PvItem (pv_type it) param (pv_value it))), 0)
  end.

(** aupv.c:127-145 *)
Definition AUpvsetvaltype {B : Build} (l : pvlist) (item type : Z) : res (pvlist * Z) :=
  do c <- pvcheck l item;
  match c with
  | inl code => Ok (l, code)
  | inr items => do _ <- aget items item; Ok (Some (updItem items item (fun it => PvItem type (pv_param it) (pv_value it))), 0)
  end.

Definition knownType (t : Z) : bool := (t =? PVTYPE_LONG) || (t =? PVTYPE_DOUBLE) || (t =? PVTYPE_PTR).

(** aupv.c:147-180.  [val]: the eight bytes the pointer leads to. *)
Definition AUpvsetval {B : Build} (l : pvlist) (item val : Z) : res (pvlist * Z) :=
  do c <- pvcheck l item;
  match c with
  | inl code => Ok (l, code)
  | inr items =>
      do it <- aget items item;
      if knownType (pv_type it) then Ok (Some (updItem items item (fun it => PvItem (pv_type it) (pv_param it) val)), 0)
      else do _ <- rassert false; Ok (l, BAD_PVLIST)
  end.

(** aupv.c:182-200; the second component is what *param holds afterwards, [old] when it is not written. *)
Definition AUpvgetparam {B : Build} (l : pvlist) (item old : Z) : res (Z * Z) :=
  do c <- pvcheck l item;
  match c with
  | inl code => Ok (code, old)
  | inr items => do it <- aget items item; Ok (0, pv_param it)
  end.

(** aupv.c:202-220 *)
Definition AUpvgetvaltype {B : Build} (l : pvlist) (item old : Z) : res (Z * Z) :=
  do c <- pvcheck l item;
  match c with
  | inl code => Ok (code, old)
  | inr items => do it <- aget items item; Ok (0, pv_type it)
  end.

(** aupv.c:222-252 *)
Definition AUpvgetval {B : Build} (l : pvlist) (item old : Z) : res (Z * Z) :=
  do c <- pvcheck l item;
  match c with
  | inl code => Ok (code, old)
  | inr items => do it <- aget items item; Ok (0, if knownType (pv_type it) then pv_value it else old)
  end.

(** ** Unique ids, util.cpp:369-384 *)

(** the inner loop, util.cpp:373-381: is ids[i] among ids[0..i-1]? *)
Fixpoint idSeen (x : Z) (before : list Z) : bool :=
  match before with
  | [] => false
  | y :: b => (x =? y) || idSeen x b
  end.
Fixpoint uniqueFrom (before rest : list Z) : bool :=
  match rest with
  | [] => true
  | x :: r => if idSeen x before then false else uniqueFrom (before ++ [x]) r
  end.
Definition uniqueIds (ids : list Z) : bool := uniqueFrom [] ids.

(** ** File setups (the metadata part), Setup.h, Marker.h, Instrument.h:34-45, afinternal.h:67-88 *)
Record markerSetup := MarkerSetup { ms_id : Z; ms_name : list Z; ms_comment : list Z }.
Record trackSetup := TrackSetup { ts_id : Z; ts_markers : list markerSetup }.
Record instSetup := InstSetup { is_id : Z; is_loops : list Z }.
Record miscSetup := MiscSetup { xs_id : Z; xs_type : Z; xs_size : Z }.
Record setup := Setup {
  su_format : Z; su_tracks : list trackSetup; su_insts : list instSetup; su_misc : list miscSetup }.

(** Marker.cpp:42-74: no check for duplicates *)
Definition afInitMarkIDs (s : setup) (trackid : Z) (ids : list Z) : setup :=
  Setup (su_format s)
    (update ts_id trackid (fun t => TrackSetup (ts_id t) (map (fun i => MarkerSetup i [] []) ids)) (su_tracks s))
    (su_insts s) (su_misc s).
(** Marker.cpp:76-119: the name is cut to 255 characters *)
Definition afInitMarkName (s : setup) (trackid markid : Z) (name : list Z) : setup :=
  Setup (su_format s)
    (update ts_id trackid (fun t => TrackSetup (ts_id t)
       (update ms_id markid (fun m => MarkerSetup (ms_id m) (zfirstn 255 name) (ms_comment m)) (ts_markers t))) (su_tracks s))
    (su_insts s) (su_misc s).
(** Marker.cpp:121-153 *)
Definition afInitMarkComment (s : setup) (trackid markid : Z) (comment : list Z) : setup :=
  Setup (su_format s)
    (update ts_id trackid (fun t => TrackSetup (ts_id t)
       (update ms_id markid (fun m => MarkerSetup (ms_id m) (ms_name m) comment) (ts_markers t))) (su_tracks s))
    (su_insts s) (su_misc s).
(** Loop.cpp:37-55 *)
Definition afInitLoopIDs (s : setup) (instid : Z) (ids : list Z) : setup :=
  if uniqueIds ids
  then Setup (su_format s) (su_tracks s) (update is_id instid (fun i => InstSetup (is_id i) ids) (su_insts s)) (su_misc s)
  else s.
(** Instrument.cpp:80-97; _af_instsetup_new Setup.cpp:149-177 gives each two loops with ids 1 and 2 *)
Definition afInitInstIDs (s : setup) (ids : list Z) : setup :=
  if uniqueIds ids
  then Setup (su_format s) (su_tracks s) (map (fun i => InstSetup i [1; 2]) ids) (su_misc s)
  else s.
(** Miscellaneous.cpp:41-72: no check for duplicates *)
Definition afInitMiscIDs (s : setup) (ids : list Z) : setup :=
  Setup (su_format s) (su_tracks s) (su_insts s) (map (fun i => MiscSetup i 0 0) ids).
(** Miscellaneous.cpp:90-98 *)
Definition afInitMiscType (s : setup) (id type : Z) : setup :=
  Setup (su_format s) (su_tracks s) (su_insts s) (update xs_id id (fun m => MiscSetup (xs_id m) type (xs_size m)) (su_misc s)).
(** Miscellaneous.cpp:111-119: any size, also negative *)
Definition afInitMiscSize (s : setup) (id size : Z) : setup :=
  Setup (su_format s) (su_tracks s) (su_insts s) (update xs_id id (fun m => MiscSetup (xs_id m) (xs_type m) size) (su_misc s)).
(** Track.cpp:43-49: only assertions *)
Definition AF_DEFAULT_TRACK := 1001.
Definition afInitTrackIDs {B : Build} (s : setup) (ids : list Z) : res setup :=
  do _ <- rassert (zlen ids =? 1);
  do _ <- rassert (match ids with i :: _ => i =? AF_DEFAULT_TRACK | [] => true end);
  Ok s.

(** ** Instrument parameters of a file format: AIFF.cpp:47-58, WAVE.cpp:104-113, units.cpp *)
(** (id, type, default) *)
Definition aiffInstParams : list (Z * Z * Z) :=
  [(301, PVTYPE_LONG, 60); (302, PVTYPE_LONG, 0); (305, PVTYPE_LONG, 1); (306, PVTYPE_LONG, 127);
   (303, PVTYPE_LONG, 0); (304, PVTYPE_LONG, 127); (307, PVTYPE_LONG, 0); (308, PVTYPE_LONG, 0); (309, PVTYPE_LONG, 0)].
Definition waveInstParams : list (Z * Z * Z) :=
  [(301, PVTYPE_LONG, 60); (302, PVTYPE_LONG, 0); (305, PVTYPE_LONG, 1); (306, PVTYPE_LONG, 127);
   (303, PVTYPE_LONG, 0); (304, PVTYPE_LONG, 127); (307, PVTYPE_LONG, 0)].
Definition FILE_AIFFC := 1.  (* audiofile.h:98-118 *)
Definition FILE_AIFF := 2.
Definition FILE_WAVE := 4.
(** units.cpp:55-266, fields instrumentParameterCount and instrumentParameters *)
Definition instParams (format : Z) : list (Z * Z * Z) :=
  if (format =? FILE_AIFFC) || (format =? FILE_AIFF) then aiffInstParams
  else if format =? FILE_WAVE then waveInstParams else [].

(** ** Open files (the metadata part) *)
Record marker := Marker { mk_id : Z; mk_name : list Z; mk_comment : list Z; mk_position : Z }. (* Marker.h *)
Record track := Track { tk_id : Z; tk_markers : list marker }.                                  (* Track.h *)
(** afinternal.h:56-63 *)
Record loop := Loop { lp_id : Z; lp_mode : Z; lp_count : Z; lp_begin : Z; lp_end : Z; lp_track : Z }.
Record inst := Inst { in_id : Z; in_loops : list loop; in_values : list Z }.                    (* Instrument.h:47-57 *)
(** afinternal.h:71-80; [None]: buffer is NULL *)
Record misc := Misc { mi_id : Z; mi_type : Z; mi_size : Z; mi_buffer : option (list Z); mi_pos : Z }.
(** FileHandle.h; [h_writing]: m_access is _AF_WRITE_ACCESS (the only other value is _AF_READ_ACCESS) *)
Record handle := Handle {
  h_writing : bool; h_format : Z; h_tracks : list track; h_insts : list inst; h_misc : list misc }.

(** FileHandle.cpp:222-348, Track.cpp:145-173: the handle of a file opened for writing *)
Fixpoint initLoops (j : Z) (ids : list Z) : list loop :=
  match ids with
  | [] => []
  | i :: r => Loop i 0 0 (2 * j + 1) (2 * j + 2) AF_DEFAULT_TRACK :: initLoops (j + 1) r
  end.
Definition initFromSetup (s : setup) : handle :=
  Handle true (su_format s)
    (map (fun t => Track (ts_id t) (map (fun m => Marker (ms_id m) (ms_name m) (ms_comment m) 0) (ts_markers t))) (su_tracks s))
    (map (fun i => Inst (is_id i) (initLoops 0 (is_loops i)) (map snd (instParams (su_format s)))) (su_insts s))
    (map (fun m => Misc (xs_id m) (xs_type m) (xs_size m) None 0) (su_misc s)).

(** *** Markers *)
Definition getMarker (h : handle) (trackid markid : Z) : option marker :=
  match lookup tk_id trackid (h_tracks h) with
  | None => None
  | Some t => lookup mk_id markid (tk_markers t)
  end.
(** Marker.cpp:155-185 *)
Definition afGetMarkName (h : handle) (trackid markid : Z) : option (list Z) := option_map mk_name (getMarker h trackid markid).
Definition afGetMarkComment (h : handle) (trackid markid : Z) : option (list Z) := option_map mk_comment (getMarker h trackid markid).
(** Marker.cpp:187-212 *)
Definition afSetMarkPosition (h : handle) (trackid markid position : Z) : handle :=
  if h_writing h then
    let p := if position <? 0 then 0 else position in
    Handle (h_writing h) (h_format h)
      (update tk_id trackid (fun t => Track (tk_id t)
         (update mk_id markid (fun m => Marker (mk_id m) (mk_name m) (mk_comment m) p) (tk_markers t))) (h_tracks h))
      (h_insts h) (h_misc h)
  else h.
(** Marker.cpp:214-232; [None]: the function returned -1 *)
Definition afGetMarkIDs (h : handle) (trackid : Z) : option (list Z) :=
  option_map (fun t => map mk_id (tk_markers t)) (lookup tk_id trackid (h_tracks h)).
(** Marker.cpp:234-248 *)
Definition afGetMarkPosition (h : handle) (trackid markid : Z) : Z :=
  match getMarker h trackid markid with None => 0 | Some m => mk_position m end.
(** Track.cpp:51-59 *)
Definition afGetTrackIDs (h : handle) : list Z := [AF_DEFAULT_TRACK].

(** *** Loops *)
(** Loop.cpp:78-92 *)
Definition getLoop (h : handle) (instid loopid : Z) (mustWrite : bool) : option loop :=
  if mustWrite && negb (h_writing h) then None
  else match lookup in_id instid (h_insts h) with
       | None => None
       | Some i => lookup lp_id loopid (in_loops i)
       end.
Definition withLoop (h : handle) (instid loopid : Z) (f : loop -> loop) : handle :=
  Handle (h_writing h) (h_format h) (h_tracks h)
    (update in_id instid (fun i => Inst (in_id i) (update lp_id loopid f (in_loops i)) (in_values i)) (h_insts h)) (h_misc h).
(** Loop.cpp:57-71 *)
Definition afGetLoopIDs (h : handle) (instid : Z) : option (list Z) :=
  option_map (fun i => map lp_id (in_loops i)) (lookup in_id instid (h_insts h)).
(** Loop.cpp:97-113; AF_LOOP_MODE_* audiofile.h:123-125 *)
Definition afSetLoopMode (h : handle) (instid loopid mode : Z) : handle :=
  match getLoop h instid loopid true with
  | None => h
  | Some _ =>
      if negb (mode =? 0) && negb (mode =? 1) && negb (mode =? 2) then h
      else withLoop h instid loopid (fun l => Loop (lp_id l) mode (lp_count l) (lp_begin l) (lp_end l) (lp_track l))
  end.
(** Loop.cpp:118-126 *)
Definition afGetLoopMode (h : handle) (instid loopid : Z) : Z :=
  match getLoop h instid loopid false with None => -1 | Some l => lp_mode l end.
(** Loop.cpp:131-146; the result is the returned status *)
Definition afSetLoopCount (h : handle) (instid loopid count : Z) : handle * Z :=
  match getLoop h instid loopid true with
  | None => (h, -1)
  | Some _ =>
      if count <? 1 then (h, -1)
      else (withLoop h instid loopid (fun l => Loop (lp_id l) (lp_mode l) count (lp_begin l) (lp_end l) (lp_track l)), 0)
  end.
(** Loop.cpp:151-159 *)
Definition afGetLoopCount (h : handle) (instid loopid : Z) : Z :=
  match getLoop h instid loopid false with None => -1 | Some l => lp_count l end.
(** Loop.cpp:164-172 *)
Definition afSetLoopStart (h : handle) (instid loopid markid : Z) : handle :=
  match getLoop h instid loopid true with
  | None => h
  | Some _ => withLoop h instid loopid (fun l => Loop (lp_id l) (lp_mode l) (lp_count l) markid (lp_end l) (lp_track l))
  end.
(** Loop.cpp:177-185 *)
Definition afGetLoopStart (h : handle) (instid loopid : Z) : Z :=
  match getLoop h instid loopid false with None => -1 | Some l => lp_begin l end.
(** Loop.cpp:190-208 *)
Definition afSetLoopStartFrame (h : handle) (instid loopid frame : Z) : handle * Z :=
  match getLoop h instid loopid true with
  | None => (h, -1)
  | Some l => if frame <? 0 then (h, -1) else (afSetMarkPosition h (lp_track l) (lp_begin l) frame, 0)
  end.
(** Loop.cpp:213-223 *)
Definition afGetLoopStartFrame (h : handle) (instid loopid : Z) : Z :=
  match getLoop h instid loopid false with None => -1 | Some l => afGetMarkPosition h (lp_track l) (lp_begin l) end.
(** Loop.cpp:228-235 *)
Definition afSetLoopTrack (h : handle) (instid loopid t : Z) : handle :=
  match getLoop h instid loopid true with
  | None => h
  | Some _ => withLoop h instid loopid (fun l => Loop (lp_id l) (lp_mode l) (lp_count l) (lp_begin l) (lp_end l) t)
  end.
(** Loop.cpp:240-248 *)
Definition afGetLoopTrack (h : handle) (instid loopid : Z) : Z :=
  match getLoop h instid loopid false with None => -1 | Some l => lp_track l end.
(** Loop.cpp:253-261 *)
Definition afSetLoopEnd (h : handle) (instid loopid markid : Z) : handle :=
  match getLoop h instid loopid true with
  | None => h
  | Some _ => withLoop h instid loopid (fun l => Loop (lp_id l) (lp_mode l) (lp_count l) (lp_begin l) markid (lp_track l))
  end.
(** Loop.cpp:266-274 *)
Definition afGetLoopEnd (h : handle) (instid loopid : Z) : Z :=
  match getLoop h instid loopid false with None => -1 | Some l => lp_end l end.
(** Loop.cpp:279-296 *)
Definition afSetLoopEndFrame (h : handle) (instid loopid frame : Z) : handle * Z :=
  match getLoop h instid loopid true with
  | None => (h, -1)
  | Some l => if frame <? 0 then (h, -1) else (afSetMarkPosition h (lp_track l) (lp_end l) frame, 0)
  end.
(** Loop.cpp:302-313 *)
Definition afGetLoopEndFrame (h : handle) (instid loopid : Z) : Z :=
  match getLoop h instid loopid false with None => -1 | Some l => afGetMarkPosition h (lp_track l) (lp_end l) end.

(** *** Instrument parameters *)
(** Instrument.cpp:99-109 *)
Definition afGetInstIDs (h : handle) : list Z := map in_id (h_insts h).
(** Instrument.cpp:275-291: index of the first parameter with the id, -1 if none *)
Fixpoint paramIndexFrom (j : Z) (ps : list (Z * Z * Z)) (id : Z) : Z :=
  match ps with
  | [] => -1
  | p :: ps' => if fst (fst p) =? id then j else paramIndexFrom (j + 1) ps' id
  end.
Definition paramIndex (format id : Z) : Z := paramIndexFrom 0 (instParams format) id.

(** AIFF.cpp:718-748 (the ranges are the same in WAVE.cpp:1041-1066 but for the two loop ids) *)
Definition rangeValid (format param val : Z) : bool :=
  if param =? 301 then (0 <=? val) && (val <=? 127)
  else if param =? 302 then (-50 <=? val) && (val <=? 50)
  else if param =? 305 then (1 <=? val) && (val <=? 127)
  else if param =? 306 then (1 <=? val) && (val <=? 127)
  else if param =? 303 then (0 <=? val) && (val <=? 127)
  else if param =? 304 then (0 <=? val) && (val <=? 127)
  else if param =? 307 then true
  else if ((param =? 308) || (param =? 309)) && negb (format =? FILE_WAVE) then true
  else false.
(** isInstrumentParameterValid: AIFF.cpp:708-751, WAVE.cpp:1029-1069, FileHandle.h:71 *)
Definition paramValid {B : Build} (format : Z) (l : pvlist) (i : Z) : res bool :=
  if (format =? FILE_AIFFC) || (format =? FILE_AIFF) || (format =? FILE_WAVE) then
    do (_, param) <- AUpvgetparam l i 0;
    do (_, type) <- AUpvgetvaltype l i 0;
    if negb (type =? PVTYPE_LONG) then Ok false
    else do (_, lval) <- AUpvgetval l i 0; Ok (rangeValid format param lval)
  else Ok false.

Definition setValue (h : handle) (instid j v : Z) : handle :=
  Handle (h_writing h) (h_format h) (h_tracks h)
    (update in_id instid (fun i => Inst (in_id i) (in_loops i)
       (zfirstn j (in_values i) ++ v :: zskipn (j + 1) (in_values i))) (h_insts h)) (h_misc h).

(** Instrument.cpp:130-161, the loop over the items; [n] items from [i] on remain *)
Fixpoint instparamSetLoop {B : Build} (n : nat) (h : handle) (instid : Z) (l : pvlist) (i : Z) : res handle :=
  match n with
  | O => Ok h
  | S n' =>
      do (_, param) <- AUpvgetparam l i 0;
      let j := paramIndex (h_format h) param in
      if j =? -1 then instparamSetLoop n' h instid l (i + 1)
      else
        do ok <- paramValid (h_format h) l i;
        if negb ok then instparamSetLoop n' h instid l (i + 1)
        else
          match lookup in_id instid (h_insts h) with
          | None => UB
          | Some ins =>
              do old <- aget (in_values ins) j;
              do (_, type) <- (do p <- aget (instParams (h_format h)) j; Ok (0, snd (fst p)));
              if knownType type then
                do (_, v) <- AUpvgetval l i old;
                instparamSetLoop n' (setValue h instid j v) instid l (i + 1)
              else Ok h
          end
  end.
(** Instrument.cpp:115-162 (afSetInstParams, 164-167) *)
Definition afSetInstParams {B : Build} (h : handle) (instid : Z) (l : pvlist) (npv : Z) : res handle :=
  if negb (h_writing h) then Ok h
  else match lookup in_id instid (h_insts h) with
       | None => Ok h
       | Some _ =>
           do mx <- AUpvgetmaxitems l;
           let npv := if mx <? npv then mx else npv in
           instparamSetLoop (Z.to_nat npv) h instid l 0
       end.
(** Instrument.cpp:169-180 *)
Definition afSetInstParamLong {B : Build} (h : handle) (instid param value : Z) : res handle :=
  let l := AUpvnew 1 in
  do (l, _) <- AUpvsetparam l 0 param;
  do (l, _) <- AUpvsetvaltype l 0 PVTYPE_LONG;
  do (l, _) <- AUpvsetval l 0 value;
  afSetInstParams h instid l 1.

(** Instrument.cpp:199-239, the loop over the items *)
Fixpoint instparamGetLoop {B : Build} (n : nat) (h : handle) (ins : inst) (l : pvlist) (i : Z) (forceLong : bool) : res pvlist :=
  match n with
  | O => Ok l
  | S n' =>
      do (_, param) <- AUpvgetparam l i 0;
      let j := paramIndex (h_format h) param in
      if j =? -1 then instparamGetLoop n' h ins l (i + 1) forceLong
      else
        do p <- aget (instParams (h_format h)) j;
        let type := snd (fst p) in
        if forceLong && negb (type =? PVTYPE_LONG) then instparamGetLoop n' h ins l (i + 1) forceLong
        else
          do (l, _) <- AUpvsetvaltype l i type;
          if knownType type then
            do v <- aget (in_values ins) j;
            do (l, _) <- AUpvsetval l i v;
            instparamGetLoop n' h ins l (i + 1) forceLong
          else Ok l
  end.
(** Instrument.cpp:186-240 *)
Definition instparamGet {B : Build} (h : handle) (instid : Z) (l : pvlist) (npv : Z) (forceLong : bool) : res pvlist :=
  match lookup in_id instid (h_insts h) with
  | None => Ok l
  | Some ins =>
      do mx <- AUpvgetmaxitems l;
      let npv := if mx <? npv then mx else npv in
      instparamGetLoop (Z.to_nat npv) h ins l 0 forceLong
  end.
(** Instrument.cpp:246-249 *)
Definition afGetInstParams {B : Build} (h : handle) (instid : Z) (l : pvlist) (npv : Z) : res pvlist :=
  instparamGet h instid l npv false.
(** Instrument.cpp:251-265.  Reading an unset [val] is undefined: AUpvgetval must have written it. *)
Definition afGetInstParamLong {B : Build} (h : handle) (instid param : Z) : res Z :=
  let l := AUpvnew 1 in
  do (l, _) <- AUpvsetparam l 0 param;
  do (l, _) <- AUpvsetvaltype l 0 PVTYPE_LONG;
  do l <- instparamGet h instid l 1 true;
  do c <- pvcheck l 0;
  match c with
  | inl _ => UB
  | inr items => do it <- aget items 0; if knownType (pv_type it) then Ok (pv_value it) else UB
  end.

(** *** Miscellaneous chunks *)
(** Miscellaneous.cpp:74-88 *)
Definition afGetMiscIDs (h : handle) : list Z := map mi_id (h_misc h).
(** Miscellaneous.cpp:100-109, 121-130 *)
Definition afGetMiscType (h : handle) (id : Z) : Z := match lookup mi_id id (h_misc h) with None => -1 | Some m => mi_type m end.
Definition afGetMiscSize (h : handle) (id : Z) : Z := match lookup mi_id id (h_misc h) with None => -1 | Some m => mi_size m end.

Definition withMisc (h : handle) (id : Z) (m : misc) : handle :=
  Handle (h_writing h) (h_format h) (h_tracks h) (h_insts h) (update mi_id id (fun _ => m) (h_misc h)).

(** memcpy of [n] bytes at offset [o] of a chunk's buffer.  Copying no bytes is taken to be harmless even when the
    buffer pointer is null (C2y; every implementation); a negative [n] becomes a huge size_t. *)
Definition bufWrite (b : option (list Z)) (o : Z) (data : list Z) (n : Z) : res (option (list Z)) :=
  if n =? 0 then Ok b
  else match b with
       | None => UB
       | Some bs =>
           if (0 <=? o) && (0 <? n) && (o + n <=? zlen bs) && (n <=? zlen data)
           then Ok (Some (zfirstn o bs ++ zfirstn n data ++ zskipn (o + n) bs))
           else UB
       end.
Definition bufRead (b : option (list Z)) (o : Z) (n : Z) : res (list Z) :=
  if n =? 0 then Ok []
  else match b with
       | None => UB
       | Some bs => if (0 <=? o) && (0 <? n) && (o + n <=? zlen bs) then Ok (zfirstn n (zskipn o bs)) else UB
       end.

(** Miscellaneous.cpp:132-164; [data] is the caller's buffer of [zlen data] = [bytes] bytes (any value of [bytes] may
    be passed, [data] is what lies at the pointer) *)
Definition afWriteMisc (h : handle) (id : Z) (data : list Z) (bytes : Z) : res (handle * Z) :=
  if negb (h_writing h) then Ok (h, -1)
  else match lookup mi_id id (h_misc h) with
       | None => Ok (h, -1)
       | Some m =>
           if bytes <=? 0 then Ok (h, -1)
           else
             do b <- match mi_buffer m with
                     | Some b => Ok (Some b)
                     | None => if mi_size m =? 0 then Ok None
                               else if mi_size m <? 0 then Ok None (* malloc of a huge size fails; see the next test *)
                               else Ok (Some (zrepeat 0 (mi_size m)))
                     end;
             if (match b with None => true | _ => false end) && negb (mi_size m =? 0) then Ok (h, -1)
             else
               do room <- ck32 (mi_size m - mi_pos m);
               let localsize := Z.min bytes room in
               do b' <- bufWrite b (mi_pos m) data localsize;
               do p <- ck32 (mi_pos m + localsize);
               Ok (withMisc h id (Misc (mi_id m) (mi_type m) (mi_size m) b' p), localsize)
       end.

(** Miscellaneous.cpp:166-190; the second component is what was stored in the caller's buffer *)
Definition afReadMisc (h : handle) (id : Z) (bytes : Z) : res (handle * (Z * list Z)) :=
  if h_writing h then Ok (h, (-1, []))
  else match lookup mi_id id (h_misc h) with
       | None => Ok (h, (-1, []))
       | Some m =>
           if bytes <=? 0 then Ok (h, (-1, []))
           else
             do room <- ck32 (mi_size m - mi_pos m);
             let localsize := Z.min bytes room in
             do d <- bufRead (mi_buffer m) (mi_pos m) localsize;
             do p <- ck32 (mi_pos m + localsize);
             Ok (withMisc h id (Misc (mi_id m) (mi_type m) (mi_size m) (mi_buffer m) p), (localsize, d))
       end.

(** Miscellaneous.cpp:192-213 *)
Definition afSeekMisc (h : handle) (id : Z) (offset : Z) : handle * Z :=
  match lookup mi_id id (h_misc h) with
  | None => (h, -1)
  | Some m =>
      if mi_size m <=? offset then (h, -1)
      else (withMisc h id (Misc (mi_id m) (mi_type m) (mi_size m) (mi_buffer m) offset), offset)
  end.

(** ** Histories of calls on an open file *)
Inductive mcall :=
| SetMarkPosition (t m p : Z)
| SetLoopMode (i l v : Z) | SetLoopCount (i l v : Z) | SetLoopStart (i l v : Z) | SetLoopEnd (i l v : Z)
| SetLoopTrack (i l v : Z) | SetLoopStartFrame (i l v : Z) | SetLoopEndFrame (i l v : Z)
| SetInstParams (i : Z) (l : pvlist) (npv : Z) | SetInstParamLong (i p v : Z)
| WriteMisc (id : Z) (data : list Z) | ReadMisc (id n : Z) | SeekMisc (id o : Z).

Definition mstep {B : Build} (h : handle) (c : mcall) : res handle :=
  match c with
  | SetMarkPosition t m p => Ok (afSetMarkPosition h t m p)
  | SetLoopMode i l v => Ok (afSetLoopMode h i l v)
  | SetLoopCount i l v => Ok (fst (afSetLoopCount h i l v))
  | SetLoopStart i l v => Ok (afSetLoopStart h i l v)
  | SetLoopEnd i l v => Ok (afSetLoopEnd h i l v)
  | SetLoopTrack i l v => Ok (afSetLoopTrack h i l v)
  | SetLoopStartFrame i l v => Ok (fst (afSetLoopStartFrame h i l v))
  | SetLoopEndFrame i l v => Ok (fst (afSetLoopEndFrame h i l v))
  | SetInstParams i l n => afSetInstParams h i l n
  | SetInstParamLong i p v => afSetInstParamLong h i p v
  | WriteMisc id data => do (h, _) <- afWriteMisc h id data (zlen data); Ok h
  | ReadMisc id n => do (h, _) <- afReadMisc h id n; Ok h
  | SeekMisc id o => Ok (fst (afSeekMisc h id o))
  end.
Fixpoint mrun {B : Build} (h : handle) (cs : list mcall) : res handle :=
  match cs with
  | [] => Ok h
  | c :: cs' => do h' <- mstep h c; mrun h' cs'
  end.
