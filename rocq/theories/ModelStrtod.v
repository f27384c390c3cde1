(** Model of src/detail/pow.cpp and src/detail/strtod.cpp: powers of ten in double precision
    and the start of a string-to-double conversion.  Doubles are values of the standard
    library's IEEE-754 arithmetic; the expressions are taken to be evaluated in double
    (FLT_EVAL_METHOD 0) in the rounding mode to nearest. *)
From Coq Require Import Floats.SpecFloat.
From Verif Require Import Machine ModelFloat ModelBigint.

(** The literal [1e+k], rounded by the compiler to the nearest double. *)
Definition literal (k : Z) : spec_float := round_decimal 53 1024 false 1 k.

(** pow.cpp:19-51, the exponents of the literals in the order of the table *)
Definition pow_exponents : list Z :=
  [0; 1; 2; 3; 4; 5; 6; 7; 8; 9; 10; 11; 12; 13; 14; 15; 16; 17; 18; 19;
   20; 21; 22; 23; 24; 25; 26; 27; 28; 29; 30; 31; 32; 33; 34; 35; 36; 37; 38; 39;
   40; 41; 42; 43; 44; 45; 46; 47; 48; 49; 50; 51; 52; 53; 54; 55; 56; 57; 58; 59;
   60; 61; 62; 63; 64; 65; 66; 67; 68; 69; 70; 71; 72; 73; 74; 75; 76; 77; 78; 79;
   80; 81; 82; 83; 84; 85; 86; 87; 88; 89; 90; 91; 92; 93; 94; 95; 96; 97; 98; 99;
   100; 101; 102; 103; 104; 105; 106; 107; 108; 109; 110; 111; 112; 113; 114; 115; 116; 117; 118; 119;
   120; 121; 122; 123; 124; 125; 126; 127; 128; 129; 130; 131; 132; 133; 134; 135; 136; 137; 138; 139;
   140; 141; 142; 143; 144; 145; 146; 147; 148; 149; 150; 151; 152; 153; 154; 155; 156; 157; 158; 159;
   160; 161; 162; 163; 164; 165; 166; 167; 168; 169; 170; 171; 172; 173; 174; 175; 176; 177; 178; 179;
   180; 181; 182; 183; 184; 185; 186; 187; 188; 189; 190; 191; 192; 193; 194; 195; 196; 197; 198; 199;
   200; 201; 202; 203; 204; 205; 206; 207; 208; 209; 210; 211; 212; 213; 214; 215; 216; 217; 218; 219;
   220; 221; 222; 223; 224; 225; 226; 227; 228; 229; 230; 231; 232; 233; 234; 235; 236; 237; 238; 239;
   240; 241; 242; 243; 244; 245; 246; 247; 248; 249; 250; 251; 252; 253; 254; 255; 256; 257; 258; 259;
   260; 261; 262; 263; 264; 265; 266; 267; 268; 269; 270; 271; 272; 273; 274; 275; 276; 277; 278; 279;
   280; 281; 282; 283; 284; 285; 286; 287; 288; 289; 290; 291; 292; 293; 294; 295; 296; 297; 298; 299;
   300; 301; 302; 303; 304; 305; 306; 307; 308].

(** pow.cpp:19-51 *)
Definition POWER10 : list spec_float := map literal pow_exponents.

(** pow.cpp:59-62: the index is not checked. *)
Definition pow10 (n : Z) : outcome spec_float :=
  if in_range n 309 then Ok (nth (Z.to_nat n) POWER10 S754_nan)
  else UB "read outside of POWER10".

(** [a * b], [a / b] and [a <= b] on double *)
Definition dmul (a b : spec_float) : spec_float := SFmul 53 1024 a b.
Definition ddiv (a b : spec_float) : spec_float := SFdiv 53 1024 a b.
Definition dle (a b : spec_float) : bool := SFleb a b.

(** [9007199254740991.0] *)
Definition max_significand : spec_float := binary_normalize 53 1024 9007199254740991 0 false.

(** strtod.cpp:26-36 *)
Definition fastPath (significand : spec_float) (exp : Z) : outcome spec_float :=
  if exp <? -308 then Ok (S754_zero false)
  else if 0 <=? exp then let* q := pow10 exp in Ok (dmul significand q)
  else let* q := pow10 (- exp) in Ok (ddiv significand q).

(** strtod.cpp:41-52 *)
Definition StrtodNormalPrecision (d : spec_float) (p : Z) : outcome spec_float :=
  if p <? -308 then
    let* d := fastPath d (-308) in
    fastPath d (p + 308)
  else fastPath d p.

(** strtod.cpp:57-63 *)
Definition min3 (a b c : Z) : Z :=
  let m := if c <? b then c else b in
  if m <? a then m else a.

(** strtod.cpp:138-152; [None] is the return value false (the result is not written), [Some r]
    is true with the result [r]. *)
Definition fast (d : spec_float) (p : Z) : outcome (option spec_float) :=
  let* (d, p) :=
    if (22 <? p) && (p <? 22 + 16) then let* q := pow10 (p - 22) in Ok (dmul d q, 22)
    else Ok (d, p) in
  if (-22 <=? p) && (p <=? 22) && dle d max_significand then
    let* r := fastPath d p in Ok (Some r)
  else Ok None.

(** strtod.cpp:66-127; the body after the return is commented out. *)
Definition withinHalfULP (b : spec_float) (d : BigInteger) (dExp : Z) : Z := 0.
