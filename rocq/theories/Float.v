(** * Floating-point values

    Doubles and floats are the [spec_float] of Coq's standard library (Coq.Floats.SpecFloat), whose arithmetic
    ([SFadd], [SFmul], ... at a given precision and exponent range) is IEEE 754 arithmetic rounding to nearest
    even.  Here: the operations of <math.h> and the conversions the code uses besides. *)
From Coq Require Export Floats.SpecFloat.
From Verif Require Import Prelude.

(** Conversion of an integer to a floating-point type. *)
Definition ofZ (prec emax z : Z) : spec_float := binary_normalize prec emax z 0 false.

(** floor(3).  Simplification: the floor of a negative zero is not distinguished. *)
Definition SFfloor (prec emax : Z) (f : spec_float) : spec_float :=
  match f with
  | S754_finite s m e => if 0 <=? e then f else binary_normalize prec emax (cond_Zopp s (Zpos m) / 2 ^ (- e)) 0 false
  | _ => f
  end.

(** The integer part (towards zero) of a finite float. *)
Definition truncZ (f : spec_float) : option Z :=
  match f with
  | S754_finite s m e => Some (cond_Zopp s (if 0 <=? e then Zpos m * 2 ^ e else Zpos m / 2 ^ (- e)))
  | S754_zero _ => Some 0
  | _ => None
  end.
(** Conversion to a signed integer type of [n] bits: undefined when the integer part does not fit. *)
Definition toInt (n : Z) (f : spec_float) : res Z :=
  match truncZ f with
  | Some z => if inS n z then Ok z else UB
  | None => UB
  end.

(** binary64 and binary32 *)
Definition dadd := SFadd 53 1024.
Definition dsub := SFsub 53 1024.
Definition dmul := SFmul 53 1024.
Definition ddiv := SFdiv 53 1024.
Definition dldexp := SFldexp 53 1024.
Definition dfrexp := SFfrexp 53 1024.
Definition dfloor := SFfloor 53 1024.
Definition dOfZ := ofZ 53 1024.
Definition fOfZ := ofZ 24 128.
(** Conversion between the two types *)
Definition toFloat (f : spec_float) : spec_float :=
  match f with S754_finite s m e => binary_round 24 128 s m e | _ => f end.
Definition toDouble (f : spec_float) : spec_float :=
  match f with S754_finite s m e => binary_round 53 1024 s m e | _ => f end.
Definition validD := valid_binary 53 1024.
Definition validF := valid_binary 24 128.
