(** * g711.c and the buffer loops of modules/G711.cpp *)
From Verif Require Import Prelude.

(** g711.c:43-44 [seg_end] *)
Definition seg_end : list Z := [255; 511; 1023; 2047; 4095; 8191; 16383; 32767].

(** g711.c:46-55 [search]: index of the first entry >= val, else the table size. *)
Fixpoint search (val : Z) (table : list Z) : Z :=
  match table with
  | [] => 0
  | t :: table' => if val <=? t then 0 else 1 + search val table'
  end.

(** g711.c:76-106 [_af_linear2alaw]; the result is returned as unsigned char.
    [aval] is an unsigned char, hence the [u8].  [>>] on negative ints is the arithmetic
    shift of every supported compiler. *)
Definition linear2alaw (pcm_val : Z) : Z :=
  let '(mask, v) := if pcm_val >=? 0 then (213, pcm_val) else (85, - pcm_val - 8) in
  let seg := search v seg_end in
  if seg >=? 8 then u8 (Z.lxor 127 mask)
  else
    let aval := u8 (Z.shiftl seg 4) in
    let aval := if seg <? 2
                then u8 (Z.lor aval (Z.land (Z.shiftr v 4) 15))
                else u8 (Z.lor aval (Z.land (Z.shiftr v (seg + 3)) 15)) in
    u8 (Z.lxor aval mask).

(** g711.c:112-135 [_af_alaw2linear] *)
Definition alaw2linear (a_val : Z) : Z :=
  let a := Z.lxor a_val 85 in
  let t := Z.shiftl (Z.land a 15) 4 in
  let seg := Z.shiftr (Z.land a 112) 4 in
  let t := if seg =? 0 then t + 8
           else if seg =? 1 then t + 264
           else Z.shiftl (t + 264) (seg - 1) in
  if Z.land a 128 =? 0 then - t else t.

(** g711.c:137 [BIAS] *)
Definition BIAS : Z := 132.

(** g711.c:170-199 [_af_linear2ulaw] *)
Definition linear2ulaw (pcm_val : Z) : Z :=
  let '(v, mask) := if pcm_val <? 0 then (BIAS - pcm_val, 127) else (pcm_val + BIAS, 255) in
  let seg := search v seg_end in
  if seg >=? 8 then u8 (Z.lxor 127 mask)
  else
    let uval := u8 (Z.lor (Z.shiftl seg 4) (Z.land (Z.shiftr v (seg + 3)) 15)) in
    u8 (Z.lxor uval mask).

(** g711.c:210-225 [_af_ulaw2linear]; [u_val = ~u_val] is stored back in an unsigned char. *)
Definition ulaw2linear (u_val : Z) : Z :=
  let u := u8 (Z.lnot u_val) in
  let t := Z.shiftl (Z.land u 15) 3 + BIAS in
  let t := Z.shiftl t (Z.shiftr (Z.land u 112) 4) in
  if Z.land u 128 =? 0 then t - BIAS else BIAS - t.

(** modules/G711.cpp:39-61: the four buffer loops.  The decoded int is stored in an int16_t. *)
Definition ulaw2linear_buf (l : list Z) : list Z := map (fun b => s16 (ulaw2linear b)) l.
Definition linear2ulaw_buf (l : list Z) : list Z := map linear2ulaw l.
Definition alaw2linear_buf (l : list Z) : list Z := map (fun b => s16 (alaw2linear b)) l.
Definition linear2alaw_buf (l : list Z) : list Z := map linear2alaw l.
