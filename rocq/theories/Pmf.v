(** * Pmf: the 16 bit logarithmic number format (src/PoorManFloat.h/.cpp)

    A value v of type [pmf_logarithmic] (int16_t) stands for 2^(v/512). *)
From Coq Require Import ZArith Bool List Lia.
From Verif Require Import Base.
Import ListNotations.
Open Scope Z_scope.

(** src/PoorManFloat.h:9-11 *)
Definition PMF_CONST_INVALID : Z := -32768.
Definition PMF_CONST_MAX : Z := 32767.
Definition PMF_CONST_MIN : Z := -32767.
(** src/PoorManFloatConst.h:61,65 *)
Definition PMF_CONST_UINT32_MAX : Z := 16384.
Definition PMF_CONST_UINT16_MAX : Z := 8192.
(** src/PoorManFloatConst.h:13 *)
Definition PMF_CONST_3_DIV_2 : Z := 300.

(** src/PoorManFloat.cpp:99-113 *)
Definition log2_tbl : list Z :=
  [
    0; 2; 3; 5; 7; 9; 10; 12; 13; 15; 17; 18; 20; 21; 23; 24; 26; 27; 28; 30;
    31; 32; 34; 35; 36; 38; 39; 40; 41; 43; 44; 45; 46; 47; 48; 49; 50; 51;
    52; 53; 54; 55; 56; 57; 58; 59; 60; 61; 62; 63; 64; 64; 65; 66; 67; 68;
    68; 69; 70; 70; 71; 72; 72; 73; 74; 74; 75; 75; 76; 77; 77; 78; 78; 79;
    79; 80; 80; 80; 81; 81; 82; 82; 83; 83; 83; 84; 84; 84; 84; 85; 85; 85;
    86; 86; 86; 86; 86; 87; 87; 87; 87; 87; 87; 88; 88; 88; 88; 88; 88; 88;
    88; 88; 88; 88; 88; 88; 88; 88; 88; 88; 88; 88; 88; 88; 88; 87; 87; 87;
    87; 87; 87; 86; 86; 86; 86; 86; 85; 85; 85; 85; 84; 84; 84; 84; 83; 83;
    83; 82; 82; 82; 81; 81; 81; 80; 80; 79; 79; 79; 78; 78; 77; 77; 76; 76;
    75; 75; 74; 74; 73; 73; 72; 72; 71; 71; 70; 70; 69; 68; 68; 67; 67; 66;
    65; 65; 64; 63; 63; 62; 61; 61; 60; 59; 59; 58; 57; 57; 56; 55; 54; 54;
    53; 52; 51; 51; 50; 49; 48; 47; 47; 46; 45; 44; 43; 42; 42; 41; 40; 39;
    38; 37; 36; 35; 34; 34; 33; 32; 31; 30; 29; 28; 27; 26; 25; 24; 23; 22;
    21; 20; 19; 18; 17; 16; 15; 14; 13; 12; 11; 10; 9; 8; 7; 6; 4; 3; 2; 1 ].

(** src/PoorManFloat.cpp:131-145 *)
Definition pow2_tbl : list Z :=
  [
    0; 1; 2; 4; 5; 6; 7; 8; 10; 11; 12; 13; 14; 15; 16; 18; 19; 20; 21; 22;
    23; 24; 25; 26; 27; 28; 29; 30; 31; 32; 33; 34; 35; 36; 37; 38; 39; 40;
    41; 42; 43; 44; 45; 46; 46; 47; 48; 49; 50; 51; 52; 52; 53; 54; 55; 56;
    56; 57; 58; 59; 59; 60; 61; 62; 62; 63; 64; 64; 65; 66; 66; 67; 68; 68;
    69; 69; 70; 71; 71; 72; 72; 73; 73; 74; 74; 75; 76; 76; 76; 77; 77; 78;
    78; 79; 79; 80; 80; 80; 81; 81; 82; 82; 82; 83; 83; 83; 84; 84; 84; 84;
    85; 85; 85; 85; 86; 86; 86; 86; 87; 87; 87; 87; 87; 87; 87; 88; 88; 88;
    88; 88; 88; 88; 88; 88; 88; 88; 88; 88; 88; 88; 88; 88; 88; 88; 88; 88;
    88; 87; 87; 87; 87; 87; 87; 86; 86; 86; 86; 86; 85; 85; 85; 84; 84; 84;
    84; 83; 83; 83; 82; 82; 81; 81; 81; 80; 80; 79; 79; 78; 78; 77; 77; 76;
    76; 75; 75; 74; 74; 73; 72; 72; 71; 71; 70; 69; 68; 68; 67; 66; 66; 65;
    64; 63; 63; 62; 61; 60; 59; 58; 58; 57; 56; 55; 54; 53; 52; 51; 50; 49;
    48; 47; 46; 45; 44; 43; 42; 41; 40; 39; 38; 36; 35; 34; 33; 32; 30; 29;
    28; 27; 25; 24; 23; 22; 20; 19; 17; 16; 15; 13; 12; 10; 9; 8; 6; 5; 3; 2 ].

(** [pgm_read_byte_near(&table[i])]; the index is an uint8_t, so it is always
    inside the 256 entries (see [PmfFacts.tables_have_256_entries]). *)
Definition tbl (t : list Z) (i : Z) : Z := nth (Z.to_nat i) t 0.

(** src/PoorManFloat.cpp:147-166, argument is uint8_t *)
Definition leading_zeros (x : Z) : Z :=
  let '(x, res) := if Z.land x 240 =? 0 then (u8 (Z.shiftl x 4), 4) else (x, 0) in
  let '(x, res) := if Z.land x 192 =? 0 then (u8 (Z.shiftl x 2), res + 2) else (x, res) in
  if Z.land x 128 =? 0 then
    let res := res + 1 in
    if x =? 0 then res + 1 else res
  else res.

(** src/PoorManFloat.cpp:168-197 *)
Definition pmfl_from_u8 (x : Z) : Z :=
  let leading := leading_zeros x in
  if leading =? 8 then PMF_CONST_INVALID
  else
    let x := u8 (Z.shiftl x (leading + 1)) in
    let e := 7 - leading in
    let offset := tbl log2_tbl x in
    let res := u16 (Z.lor (Z.shiftl e 8) x) in
    let res := u16 (Z.shiftl res 1) in
    let offset := u8 (offset + 1) in
    let res := u16 (res + Z.shiftr offset 1) in
    i16 res.

(** src/PoorManFloat.cpp:199-224 *)
Definition pmfl_from_u16 (x : Z) : Z :=
  let leading := leading_zeros (u8 (Z.shiftr x 8)) in
  if leading =? 8 then pmfl_from_u8 (u8 x)
  else
    let x := u16 (Z.shiftl x (leading + 1)) in
    let exponent := 15 - leading in
    let x := Z.shiftr x 5 in
    let index := u8 (Z.shiftr x 3) in
    let offset := tbl log2_tbl index in
    let offset :=
      if Z.land x 7 >? 2 then
        let index := u8 (index + 1) in
        let offset := u8 (offset + tbl log2_tbl index) in
        u8 (offset + 1)
      else u8 (Z.shiftl offset 1) in
    let x := u16 (x + offset) in
    let x := Z.shiftr x 2 in
    let x := u16 (x + Z.shiftl exponent 9) in
    i16 x.

(** src/PoorManFloat.cpp:225-247 *)
Definition pmfl_from_u32 (x : Z) : Z :=
  let '(w, exp_offset) :=
    if Z.land x 4278190080 =? 0 then
      if Z.land x 16711680 =? 0 then (u16 x, 0)
      else if Z.land x 15728640 =? 0 then (u16 (Z.shiftr x 4), 2048)
      else (u16 (Z.shiftr x 8), 4096)
    else if Z.land x 4026531840 =? 0 then (u16 (Z.shiftr x 12), 6144)
    else (u16 (Z.shiftr x 16), 8192) in
  i16 (pmfl_from_u16 w + exp_offset).

(** src/PoorManFloat.cpp:248-276. [x] is int16_t: [x <<= n] wraps; the final
    conversion to uint16_t makes the wrap invisible. *)
Definition pmfl_to_u16 (x : Z) : Z :=
  if x <? 0 then 0
  else if x >=? PMF_CONST_UINT16_MAX then 65535
  else
    let exponent := u8 (Z.shiftr (u16 x) 9) in
    let x := Z.land x 511 in
    let x := i16 (x + 512) in
    let index := u8 (Z.shiftr (u16 x) 1) in
    let x := i16 (Z.shiftl x 1) in
    let offset := tbl pow2_tbl index in
    let offset :=
      if negb (Z.land x 2 =? 0) then
        let index := u8 (index + 1) in
        let offset := u8 (offset + tbl pow2_tbl index) in
        Z.shiftr offset 1
      else offset in
    let x := i16 (x - offset) in
    let x :=
      if exponent >? 10 then i16 (Z.shiftl x (exponent - 10))
      else if exponent <? 10 then
        let x := i16 (x + (if negb (exponent =? 9) then 2 else 1)) in
        Z.shiftr x (10 - exponent)
      else x in
    u16 x.

(** src/PoorManFloat.cpp:277-293 *)
Definition pmfl_to_u32 (x : Z) : Z :=
  if x <? 0 then 0
  else if x >=? PMF_CONST_UINT32_MAX then 4294967295
  else
    let exponent := u8 (Z.shiftr (u16 x) 9) in
    if exponent <? 16 then pmfl_to_u16 x
    else
      let shift := exponent - 15 in
      let x := i16 (x - Z.shiftl shift 9) in
      u32 (Z.shiftl (pmfl_to_u16 x) shift).

(** src/PoorManFloat.cpp:294-302. On targets with 16 bit [int] (AVR) the sum
    0x4000+0x4000 is a signed overflow; elsewhere it wraps on conversion. *)
Definition pmfl_square (x : Z) : Z :=
  if x >? 16384 then PMF_CONST_MAX
  else if x <=? -16384 then PMF_CONST_MIN
  else i16 (x + x).

(** src/PoorManFloat.h:20-28. Macros: they compute in [int]; the wrap happens
    where the result is stored into a [pmf_logarithmic] variable. *)
Definition pmfl_multiply (x y : Z) : Z := x + y.
Definition pmfl_divide (x y : Z) : Z := x - y.
Definition pmfl_sqrt (x : Z) : Z := cdiv x 2.

(** src/PoorManFloat.h:30-38 *)
Definition pmfl_pow_div_3 (x : Z) : Z :=
  let x := cdiv x 2 in
  let x := i16 (x + cdiv x 4) in
  let x := i16 (x + cdiv x 16) in
  let x := i16 (x + cdiv x 256) in
  let x := i16 (x + 1) in
  cdiv x 2.

(** src/PoorManFloat.h:39-40 *)
Definition pmfl_pow_2_div_3 (x : Z) : Z := x - pmfl_pow_div_3 x.
Definition pmfl_pow_3_div_2 (x : Z) : Z := x + cdiv x 2.
