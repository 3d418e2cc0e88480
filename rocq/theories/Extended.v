(** * extended.c: 80-bit floating-point numbers (AIFF sample rates)

    long is 64 bits (LP64). *)
From Verif Require Import Prelude Float.

Definition dzero : spec_float := S754_zero false.
Definition done : spec_float := dOfZ 1.

(** extended.c:61 [FloatToUnsigned]: a conversion to long, a long addition, a conversion to unsigned long. *)
Definition floatToUnsigned (f : spec_float) : res Z :=
  do l <- toInt 64 (dsub f (dOfZ 2147483648));
  if inS 64 (l + 2147483647) then Ok (u64 (u64 (l + 2147483647) + 1)) else UB.

(** extended.c:63-111 [_af_convert_to_ieee_extended].  Line 72 multiplies by -1, which flips the sign. *)
Definition toExtended (num : spec_float) : res (list Z) :=
  let '(sign, num) := if SFltb num dzero then (0x8000, SFopp num) else (0, num) in
  do t <- (if SFeqb num dzero then Ok (0, 0, 0)
    else
      let '(fMant, expon) := dfrexp num in
      if (16384 <? expon) || negb (SFltb fMant done) then Ok (Z.lor sign 0x7fff, 0, 0)
      else
        let expon := expon + 16382 in
        let '(fMant, expon) := if expon <? 0 then (dldexp fMant expon, 0) else (fMant, expon) in
        let expon := Z.lor expon sign in
        let fMant := dldexp fMant 32 in
        let fsMant := dfloor fMant in
        do hi <- floatToUnsigned fsMant;
        let fMant := dldexp (dsub fMant fsMant) 32 in
        let fsMant := dfloor fMant in
        do lo <- floatToUnsigned fsMant;
        Ok (expon, hi, lo));
  let '(expon, hi, lo) := t in
  Ok [u8 (Z.shiftr expon 8); u8 expon;
      u8 (Z.shiftr hi 24); u8 (Z.shiftr hi 16); u8 (Z.shiftr hi 8); u8 hi;
      u8 (Z.shiftr lo 24); u8 (Z.shiftr lo 16); u8 (Z.shiftr lo 8); u8 lo].

(** extended.c:113 [UnsignedToFloat] *)
Definition unsignedToFloat (u : Z) : spec_float := dadd (dOfZ (s64 (u64 (u64 (u - 2147483647) - 1)))) (dOfZ 2147483648).

(** extended.c:115-149 [_af_convert_from_ieee_extended] *)
Definition fromExtended (bytes : list Z) : res spec_float :=
  match bytes with
  | [b0; b1; b2; b3; b4; b5; b6; b7; b8; b9] =>
      let expon := Z.lor (Z.shiftl (Z.land b0 0x7f) 8) (Z.land b1 0xff) in
      let hi := Z.lor (Z.lor (Z.lor (Z.shiftl (Z.land b2 0xff) 24) (Z.shiftl (Z.land b3 0xff) 16)) (Z.shiftl (Z.land b4 0xff) 8)) (Z.land b5 0xff) in
      let lo := Z.lor (Z.lor (Z.lor (Z.shiftl (Z.land b6 0xff) 24) (Z.shiftl (Z.land b7 0xff) 16)) (Z.shiftl (Z.land b8 0xff) 8)) (Z.land b9 0xff) in
      let f :=
        if (expon =? 0) && (hi =? 0) && (lo =? 0) then dzero
        else if expon =? 0x7fff then S754_infinity false
        else
          let expon := expon - 16383 in
          let f := dldexp (unsignedToFloat hi) (expon - 31) in
          dadd f (dldexp (unsignedToFloat lo) (expon - 31 - 32)) in
      Ok (if Z.land b0 0x80 =? 0 then f else SFopp f)
  | _ => UB
  end.
