(** * NIST.cpp: NIST SPHERE files: a text header of 1024 bytes.  Sample rates are whole numbers of hertz. *)
From Verif Require Import Prelude ByteOrder FileIO Writer Codecs HeaderIO Chunks SampleVision.
From Coq Require Import String Ascii.

(** The characters of a literal. *)
Fixpoint txt (s : string) : list Z := match s with EmptyString => [] | String c s => Z.of_nat (nat_of_ascii c) :: txt s end.

(** ** The C library *)
(** printf's %d *)
Fixpoint digits (fuel : nat) (n : Z) : list Z :=
  match fuel with
  | O => []
  | S fuel => (if n <? 10 then [] else digits fuel (n / 10)) ++ [48 + n mod 10]
  end.
Definition decimal (n : Z) : list Z := if n <? 0 then 45 :: digits 10 (- n) else digits 10 n.

(** strstr: what follows the first occurrence *)
Fixpoint strip (p t : list Z) : option (list Z) :=
  match p with
  | [] => Some t
  | x :: p => match t with [] => None | y :: t => if x =? y then strip p t else None end
  end.
Fixpoint strstr (p t : list Z) : option (list Z) :=
  match strip p t with
  | Some r => Some r
  | None => match t with [] => None | _ :: t => strstr p t end
  end.

Definition isSpace (c : Z) : bool := (c =? 32) || ((9 <=? c) && (c <=? 13)).
Definition isDigit (c : Z) : bool := (48 <=? c) && (c <=? 57).
Fixpoint skipWs (t : list Z) : list Z := match t with [] => [] | c :: r => if isSpace c then skipWs r else t end.
Fixpoint span (q : Z -> bool) (t : list Z) : list Z * list Z :=
  match t with [] => ([], []) | c :: r => if q c then let '(a, b) := span q r in (c :: a, b) else ([], t) end.
Definition number (ds : list Z) : Z := fold_left (fun v d => v * 10 + (d - 48)) ds 0.
(** scanf's %d: nothing when there is no number; a number that is not an int is undefined behaviour (C11 7.21.6.2 p10) *)
Definition scanD (t : list Z) : res (option (Z * list Z)) :=
  let t := skipWs t in
  let '(neg, t) := match t with c :: r => if c =? 45 then (true, r) else if c =? 43 then (false, r) else (false, t) | [] => (false, t) end in
  let '(ds, r) := span isDigit t in
  match ds with
  | [] => Ok None
  | _ => let v := if (neg : bool) then - number ds else number ds in if inS 32 v then Ok (Some (v, r)) else UB
  end.
(** scanf's %79s *)
Definition scanS (t : list Z) : option (list Z) :=
  let w := fst (span (fun c => negb (isSpace c)) (skipWs t)) in
  match w with [] => None | _ => Some (firstn 79 w) end.

(** ** Writing *)
(** NIST.cpp:419-435: (int) _af_format_sample_size (util.cpp:286-293; the squish factor of G.711 is 2) *)
Definition nistBytes (f : format) : Z :=
  match f_comp f with CNone => Z.quot (f_width f + 7) 8 | _ => Z.quot (Z.quot (f_width f + 7) 8) 2 end.
(** NIST.cpp:378-396 [sample_byte_format]; its assertion is [nistWritable] *)
Definition nistWritable (f : format) : bool := (nistBytes f =? 1) || (nistBytes f =? 2).
Definition nistByteFormat (f : format) : list Z :=
  if nistBytes f =? 1 then txt "0" else match f_order f with BigEndian => txt "10" | LittleEndian => txt "01" end.
(** NIST.cpp:398-409 [sample_coding] *)
Definition nistCoding (f : format) : list Z := match f_comp f with CUlaw => txt "ulaw" | CAlaw => txt "alaw" | _ => txt "pcm" end.

Definition K_chan := txt "channel_count".
Definition K_count := txt "sample_count".
Definition K_rate := txt "sample_rate".
Definition K_nbytes := txt "sample_n_bytes".
Definition K_order := txt "sample_byte_format".
Definition K_sig := txt "sample_sig_bits".
Definition K_coding := txt "sample_coding".
Definition line (l : list Z) : list Z := 10 :: l.
Definition intLine (k : list Z) (v : Z) : list Z := line (k ++ txt " -i " ++ decimal v).
Definition strLine (k : list Z) (n : Z) (s : list Z) : list Z := line (k ++ txt " -s" ++ decimal n ++ txt " " ++ s).
(** NIST.cpp:417-437: the text, in the order it is printed; the frame count is converted to int *)
Definition nistText (f : format) (total : Z) : list Z :=
  txt "NIST_1A" ++ line (txt "   1024") ++ intLine K_chan (f_chan f) ++ intLine K_count (s32 total) ++ intLine K_rate (f_rate f) ++
  intLine K_nbytes (nistBytes f) ++ strLine K_order (nistBytes f) (nistByteFormat f) ++ intLine K_sig (f_width f) ++
  strLine K_coding (zlen (nistCoding f)) (nistCoding f) ++ line (txt "end_head") ++ [10].
(** NIST.cpp:411-439 [writeHeader]: padded with blanks *)
Definition nistHeader (f : format) (total : Z) : list Z :=
  let t := nistText f total in t ++ zrepeat 32 (1024 - zlen t).
Definition nistFirst : Z := 1024.
(** NIST.cpp:441-454 [writeInit], 456-462 [update] *)
Definition nistInit (f : format) : list Z := nistHeader f 0.
Definition nistUpdate (fm : format) (f : file) (t : wtrack) : file := fwrite (fseek f 0) (nistHeader fm (w_totalf t)).

(** NIST.cpp:62-76 [recognize] *)
Definition nistMagic : list Z := txt "NIST_1A" ++ line (txt "   1024") ++ [10].
Definition nistRecognize (f : file) : bool :=
  let '(b, _) := fread (fseek f 0) 16 in (zlen b =? 16) && teq b nistMagic.

(** ** Reading *)
(** NIST.cpp:161-176 [nist_header_read_int]: nothing when the key is not there; otherwise what the variable holds afterwards
    ([old] when scanf finds no number).  The scanf format is the key again, which matches what strstr found. *)
Definition nistInt (text key : list Z) (old : option Z) : res (option (option Z)) :=
  match strstr (10 :: key ++ txt " -i") text with
  | None => Ok None
  | Some r => do x <- scanD r; Ok (Some (match x with Some (v, _) => Some v | None => old end))
  end.
(** NIST.cpp:178-193 [nist_header_read_string] *)
Definition nistStr (text key : list Z) (oldn : option Z) (olds : option (list Z)) : res (option (option Z * option (list Z))) :=
  match strstr (10 :: key ++ txt " -s") text with
  | None => Ok None
  | Some r => do x <- scanD r;
      Ok (Some (match x with
                | None => (oldn, olds)
                | Some (v, r) => (Some v, match scanS r with Some s => Some s | None => olds end)
                end))
  end.

(** An uninitialised variable is used. *)
Definition known {A} (x : option A) : res A := match x with Some v => Ok v | None => UB end.

(** NIST.cpp:258-286: the sample coding: compression type and width, and the two variables.  "pcm" changes nothing. *)
Definition nistReadCoding (text : list Z) (comp : compression) (w : Z) (v : option Z) : res (option (compression * Z * option Z * option (list Z))) :=
  do c <- nistStr text K_coding v None;
  match c with
  | None => Ok (Some (comp, w, v, None))
  | Some (v, s) =>
      do x <- known s;
      if teq x (txt "pcm") then Ok (Some (comp, w, v, s))
      else if teq x (txt "ulaw") || teq x (txt "mu-law") then Ok (Some (CUlaw, 16, v, s))
      else if teq x (txt "alaw") then Ok (Some (CAlaw, 16, v, s))
      else Ok None
  end.
(** NIST.cpp:288-314: the byte order ([None] inside: not set) and intval *)
Definition nistReadOrder (host : order) (text : list Z) (comp : compression) (w : Z) (v : option Z) (s : option (list Z)) : res (option (option order * option Z)) :=
  do c <- nistStr text K_order v s;
  match c with
  | None => if compression_eqb comp CNone && (8 <? w) then Ok None else Ok (Some (None, v))
  | Some (v, s) =>
      do n <- known v;
      if 1 <? n then do x <- known s; Ok (Some (Some (match strip (txt "01") x with Some _ => LittleEndian | None => BigEndian end), v))
      else Ok (Some (Some host, v))
  end.
(** NIST.cpp:316-340: the width *)
Definition nistReadSig (text : list Z) (comp : compression) (w nb : Z) (v : option Z) : res (option (Z * option Z)) :=
  do c <- nistInt text K_sig v;
  match c with
  | None => Ok (Some (w, v))
  | Some v =>
      do x <- known v;
      if (x <? 1) || (32 <? x) then Ok None
      else Ok (Some (if compression_eqb comp CNone && (Z.quot (x + 7) 8 =? nb) then x else w, v))
  end.
(** NIST.cpp:218-376: the format and the frame count *)
Definition nistParse (host : order) (text : list Z) : res (option (format * Z)) :=
  do c <- nistInt text K_chan None;
  match c with None => Ok None | Some v =>
  do ch <- known v;
  if ch <? 1 then Ok None else
  do c <- nistInt text K_nbytes None;
  match c with None => Ok None | Some n =>
  do nb <- known n;
  do x <- (if nb =? 1 then Ok (CUlaw, 16, ch) else do w <- ck32 (nb * 8); do b <- bppPCM w ch; Ok (CNone, w, b));
  let '(comp, w, bpp) := x in
  do c <- nistReadCoding text comp w v;
  match c with None => Ok None | Some (comp, w, v, s) =>
  do c <- nistReadOrder host text comp w v s;
  match c with None => Ok None | Some (o, v) =>
  do c <- nistReadSig text comp w nb v;
  match c with None => Ok None | Some (w, v) =>
  do c <- nistInt text K_rate v;
  match c with None => Ok None | Some v =>
  do rate <- known v;
  if rate <=? 0 then Ok None else
  do c <- nistInt text K_count v;
  match c with None => Ok None | Some v =>
  do count <- known v;
  if (w <? 1) || (32 <? w) then Ok None else
  do o <- known o;
  Ok (Some (mkFmt rate TwosComp w ch o comp 1 bpp, count))
  end end end end end end end.
(** NIST.cpp:195-376 [readInit] *)
Definition nistRead (host : order) : hP parsed :=
  let! _ := hseek 0 in
  let! h := hread 1024 in
  if negb (zlen h =? 1024) then hfail else
  if negb (teq (zfirstn 16 h) nistMagic) then hfail else
  let! r := hlift (nistParse host (cstr h)) in
  match r with
  | None => hfail
  | Some (fm, count) => let! len := hlength in hret (mkParsed fm 1024 (len - 1024) count)
  end.
