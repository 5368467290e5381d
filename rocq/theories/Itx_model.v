(** Model of src/transform/inverse.rs: the portable inverse transforms, without the lossless one
    (see Wht_model).  A stage of a transform is a list of operations, one for each element of the array,
    with references to the array of the stage before; they are transcribed from the source line by line.
    i32 arithmetic wraps around in butterflies and sums; elsewhere values are
    far from its limits. *)
From Verif Require Import Base.
Local Open Scope Z_scope.

(* 55-62 *)
Definition COSPI_INV : list Z :=
  [4096; 4095; 4091; 4085; 4076; 4065; 4052; 4036; 4017; 3996; 3973; 3948;
   3920; 3889; 3857; 3822; 3784; 3745; 3703; 3659; 3612; 3564; 3513; 3461;
   3406; 3349; 3290; 3229; 3166; 3102; 3035; 2967; 2896; 2824; 2751; 2675;
   2598; 2520; 2440; 2359; 2276; 2191; 2106; 2019; 1931; 1842; 1751; 1660;
   1567; 1474; 1380; 1285; 1189; 1092; 995; 897; 799; 700; 601; 501; 401; 301;
   201; 101].
Definition cos (k : Z) : Z := nth (Z.to_nat k) COSPI_INV 0.

Inductive op :=
| Cpy (i : Z)                     (* stg[i] *)
| Neg (i : Z)                     (* -stg[i] *)
| Btf (w0 i w1 j : Z)             (* half_btf(w0, stg[i], w1, stg[j], INV_COS_BIT) *)
| Add (i j : Z)                   (* clamp_value(stg[i] + stg[j], range) *)
| Sub (i j : Z)                   (* clamp_value(stg[i] - stg[j], range) *)
| NegAdd (i j : Z).               (* clamp_value(-stg[i] + stg[j], range) *)
Definition stage := list op.

(* av1_idct4, 71-91 *)
Definition idct4_stages : list stage := [
  [
    Cpy 0; Cpy 2; Cpy 1; Cpy 3];
  [
    Btf (cos 32) 0 (cos 32) 1; Btf (cos 32) 0 (- cos 32) 1; Btf (cos 48) 2 (- cos 16) 3; Btf (cos 16) 2 (cos 48) 3];
  [
    Add 0 3; Add 1 2; Sub 1 2; Sub 0 3]].
(* av1_idct8, 160-207: the odd part; the even part is the smaller transform *)
Definition idct8_even : stage := [
    Cpy 0; Cpy 2; Cpy 4; Cpy 6].
Definition idct8_stages : list stage := [
  [
    Cpy 1; Cpy 5; Cpy 3; Cpy 7];
  [
    Btf (cos 56) 0 (- cos 8) 3; Btf (cos 24) 1 (- cos 40) 2; Btf (cos 40) 1 (cos 24) 2; Btf (cos 8) 0 (cos 56) 3];
  [
    Add 0 1; Sub 0 1; NegAdd 2 3; Add 2 3];
  [
    Cpy 0; Btf (- cos 32) 1 (cos 32) 2; Btf (cos 32) 1 (cos 32) 2; Cpy 3]].
(* temp_out, then the odd part *)
Definition idct8_last : stage := [
    Add 0 7; Add 1 6; Add 2 5; Add 3 4; Sub 3 4; Sub 2 5; Sub 1 6; Sub 0 7].
(* av1_idct16, 306-401: the odd part; the even part is the smaller transform *)
Definition idct16_even : stage := [
    Cpy 0; Cpy 2; Cpy 4; Cpy 6; Cpy 8; Cpy 10; Cpy 12; Cpy 14].
Definition idct16_stages : list stage := [
  [
    Cpy 1; Cpy 9; Cpy 5; Cpy 13; Cpy 3; Cpy 11; Cpy 7; Cpy 15];
  [
    Btf (cos 60) 0 (- cos 4) 7; Btf (cos 28) 1 (- cos 36) 6; Btf (cos 44) 2 (- cos 20) 5;
    Btf (cos 12) 3 (- cos 52) 4; Btf (cos 52) 3 (cos 12) 4; Btf (cos 20) 2 (cos 44) 5; Btf (cos 36) 1 (cos 28) 6;
    Btf (cos 4) 0 (cos 60) 7];
  [
    Add 0 1; Sub 0 1; NegAdd 2 3; Add 2 3; Add 4 5; Sub 4 5; NegAdd 6 7; Add 6 7];
  [
    Cpy 0; Btf (- cos 16) 1 (cos 48) 6; Btf (- cos 48) 2 (- cos 16) 5; Cpy 3; Cpy 4; Btf (- cos 16) 2 (cos 48) 5;
    Btf (cos 48) 1 (cos 16) 6; Cpy 7];
  [
    Add 0 3; Add 1 2; Sub 1 2; Sub 0 3; NegAdd 4 7; NegAdd 5 6; Add 5 6; Add 4 7];
  [
    Cpy 0; Cpy 1; Btf (- cos 32) 2 (cos 32) 5; Btf (- cos 32) 3 (cos 32) 4; Btf (cos 32) 3 (cos 32) 4;
    Btf (cos 32) 2 (cos 32) 5; Cpy 6; Cpy 7]].
(* temp_out, then the odd part *)
Definition idct16_last : stage := [
    Add 0 15; Add 1 14; Add 2 13; Add 3 12; Add 4 11; Add 5 10; Add 6 9; Add 7 8; Sub 7 8; Sub 6 9; Sub 5 10;
    Sub 4 11; Sub 3 12; Sub 2 13; Sub 1 14; Sub 0 15].
(* av1_idct32, 586-884 *)
Definition idct32_stages : list stage := [
  [
    Cpy 0; Cpy 16; Cpy 8; Cpy 24; Cpy 4; Cpy 20; Cpy 12; Cpy 28; Cpy 2; Cpy 18; Cpy 10; Cpy 26; Cpy 6; Cpy 22;
    Cpy 14; Cpy 30; Cpy 1; Cpy 17; Cpy 9; Cpy 25; Cpy 5; Cpy 21; Cpy 13; Cpy 29; Cpy 3; Cpy 19; Cpy 11; Cpy 27;
    Cpy 7; Cpy 23; Cpy 15; Cpy 31];
  [
    Cpy 0; Cpy 1; Cpy 2; Cpy 3; Cpy 4; Cpy 5; Cpy 6; Cpy 7; Cpy 8; Cpy 9; Cpy 10; Cpy 11; Cpy 12; Cpy 13; Cpy 14;
    Cpy 15; Btf (cos 62) 16 (- cos 2) 31; Btf (cos 30) 17 (- cos 34) 30; Btf (cos 46) 18 (- cos 18) 29;
    Btf (cos 14) 19 (- cos 50) 28; Btf (cos 54) 20 (- cos 10) 27; Btf (cos 22) 21 (- cos 42) 26;
    Btf (cos 38) 22 (- cos 26) 25; Btf (cos 6) 23 (- cos 58) 24; Btf (cos 58) 23 (cos 6) 24;
    Btf (cos 26) 22 (cos 38) 25; Btf (cos 42) 21 (cos 22) 26; Btf (cos 10) 20 (cos 54) 27;
    Btf (cos 50) 19 (cos 14) 28; Btf (cos 18) 18 (cos 46) 29; Btf (cos 34) 17 (cos 30) 30; Btf (cos 2) 16 (cos 62) 31];
  [
    Cpy 0; Cpy 1; Cpy 2; Cpy 3; Cpy 4; Cpy 5; Cpy 6; Cpy 7; Btf (cos 60) 8 (- cos 4) 15;
    Btf (cos 28) 9 (- cos 36) 14; Btf (cos 44) 10 (- cos 20) 13; Btf (cos 12) 11 (- cos 52) 12;
    Btf (cos 52) 11 (cos 12) 12; Btf (cos 20) 10 (cos 44) 13; Btf (cos 36) 9 (cos 28) 14; Btf (cos 4) 8 (cos 60) 15;
    Add 16 17; Sub 16 17; NegAdd 18 19; Add 18 19; Add 20 21; Sub 20 21; NegAdd 22 23; Add 22 23; Add 24 25;
    Sub 24 25; NegAdd 26 27; Add 26 27; Add 28 29; Sub 28 29; NegAdd 30 31; Add 30 31];
  [
    Cpy 0; Cpy 1; Cpy 2; Cpy 3; Btf (cos 56) 4 (- cos 8) 7; Btf (cos 24) 5 (- cos 40) 6; Btf (cos 40) 5 (cos 24) 6;
    Btf (cos 8) 4 (cos 56) 7; Add 8 9; Sub 8 9; NegAdd 10 11; Add 10 11; Add 12 13; Sub 12 13; NegAdd 14 15;
    Add 14 15; Cpy 16; Btf (- cos 8) 17 (cos 56) 30; Btf (- cos 56) 18 (- cos 8) 29; Cpy 19; Cpy 20;
    Btf (- cos 40) 21 (cos 24) 26; Btf (- cos 24) 22 (- cos 40) 25; Cpy 23; Cpy 24; Btf (- cos 40) 22 (cos 24) 25;
    Btf (cos 24) 21 (cos 40) 26; Cpy 27; Cpy 28; Btf (- cos 8) 18 (cos 56) 29; Btf (cos 56) 17 (cos 8) 30; Cpy 31];
  [
    Btf (cos 32) 0 (cos 32) 1; Btf (cos 32) 0 (- cos 32) 1; Btf (cos 48) 2 (- cos 16) 3; Btf (cos 16) 2 (cos 48) 3;
    Add 4 5; Sub 4 5; NegAdd 6 7; Add 6 7; Cpy 8; Btf (- cos 16) 9 (cos 48) 14; Btf (- cos 48) 10 (- cos 16) 13;
    Cpy 11; Cpy 12; Btf (- cos 16) 10 (cos 48) 13; Btf (cos 48) 9 (cos 16) 14; Cpy 15; Add 16 19; Add 17 18;
    Sub 17 18; Sub 16 19; NegAdd 20 23; NegAdd 21 22; Add 21 22; Add 20 23; Add 24 27; Add 25 26; Sub 25 26;
    Sub 24 27; NegAdd 28 31; NegAdd 29 30; Add 29 30; Add 28 31];
  [
    Add 0 3; Add 1 2; Sub 1 2; Sub 0 3; Cpy 4; Btf (- cos 32) 5 (cos 32) 6; Btf (cos 32) 5 (cos 32) 6; Cpy 7;
    Add 8 11; Add 9 10; Sub 9 10; Sub 8 11; NegAdd 12 15; NegAdd 13 14; Add 13 14; Add 12 15; Cpy 16; Cpy 17;
    Btf (- cos 16) 18 (cos 48) 29; Btf (- cos 16) 19 (cos 48) 28; Btf (- cos 48) 20 (- cos 16) 27;
    Btf (- cos 48) 21 (- cos 16) 26; Cpy 22; Cpy 23; Cpy 24; Cpy 25; Btf (- cos 16) 21 (cos 48) 26;
    Btf (- cos 16) 20 (cos 48) 27; Btf (cos 48) 19 (cos 16) 28; Btf (cos 48) 18 (cos 16) 29; Cpy 30; Cpy 31];
  [
    Add 0 7; Add 1 6; Add 2 5; Add 3 4; Sub 3 4; Sub 2 5; Sub 1 6; Sub 0 7; Cpy 8; Cpy 9;
    Btf (- cos 32) 10 (cos 32) 13; Btf (- cos 32) 11 (cos 32) 12; Btf (cos 32) 11 (cos 32) 12;
    Btf (cos 32) 10 (cos 32) 13; Cpy 14; Cpy 15; Add 16 23; Add 17 22; Add 18 21; Add 19 20; Sub 19 20; Sub 18 21;
    Sub 17 22; Sub 16 23; NegAdd 24 31; NegAdd 25 30; NegAdd 26 29; NegAdd 27 28; Add 27 28; Add 26 29; Add 25 30;
    Add 24 31];
  [
    Add 0 15; Add 1 14; Add 2 13; Add 3 12; Add 4 11; Add 5 10; Add 6 9; Add 7 8; Sub 7 8; Sub 6 9; Sub 5 10;
    Sub 4 11; Sub 3 12; Sub 2 13; Sub 1 14; Sub 0 15; Cpy 16; Cpy 17; Cpy 18; Cpy 19; Btf (- cos 32) 20 (cos 32) 27;
    Btf (- cos 32) 21 (cos 32) 26; Btf (- cos 32) 22 (cos 32) 25; Btf (- cos 32) 23 (cos 32) 24;
    Btf (cos 32) 23 (cos 32) 24; Btf (cos 32) 22 (cos 32) 25; Btf (cos 32) 21 (cos 32) 26;
    Btf (cos 32) 20 (cos 32) 27; Cpy 28; Cpy 29; Cpy 30; Cpy 31];
  [
    Add 0 31; Add 1 30; Add 2 29; Add 3 28; Add 4 27; Add 5 26; Add 6 25; Add 7 24; Add 8 23; Add 9 22; Add 10 21;
    Add 11 20; Add 12 19; Add 13 18; Add 14 17; Add 15 16; Sub 15 16; Sub 14 17; Sub 13 18; Sub 12 19; Sub 11 20;
    Sub 10 21; Sub 9 22; Sub 8 23; Sub 7 24; Sub 6 25; Sub 5 26; Sub 4 27; Sub 3 28; Sub 2 29; Sub 1 30; Sub 0 31]].
(* av1_idct64, 893-1589 *)
Definition idct64_stages : list stage := [
  [
    Cpy 0; Cpy 32; Cpy 16; Cpy 48; Cpy 8; Cpy 40; Cpy 24; Cpy 56; Cpy 4; Cpy 36; Cpy 20; Cpy 52; Cpy 12; Cpy 44;
    Cpy 28; Cpy 60; Cpy 2; Cpy 34; Cpy 18; Cpy 50; Cpy 10; Cpy 42; Cpy 26; Cpy 58; Cpy 6; Cpy 38; Cpy 22; Cpy 54;
    Cpy 14; Cpy 46; Cpy 30; Cpy 62; Cpy 1; Cpy 33; Cpy 17; Cpy 49; Cpy 9; Cpy 41; Cpy 25; Cpy 57; Cpy 5; Cpy 37;
    Cpy 21; Cpy 53; Cpy 13; Cpy 45; Cpy 29; Cpy 61; Cpy 3; Cpy 35; Cpy 19; Cpy 51; Cpy 11; Cpy 43; Cpy 27; Cpy 59;
    Cpy 7; Cpy 39; Cpy 23; Cpy 55; Cpy 15; Cpy 47; Cpy 31; Cpy 63];
  [
    Cpy 0; Cpy 1; Cpy 2; Cpy 3; Cpy 4; Cpy 5; Cpy 6; Cpy 7; Cpy 8; Cpy 9; Cpy 10; Cpy 11; Cpy 12; Cpy 13; Cpy 14;
    Cpy 15; Cpy 16; Cpy 17; Cpy 18; Cpy 19; Cpy 20; Cpy 21; Cpy 22; Cpy 23; Cpy 24; Cpy 25; Cpy 26; Cpy 27; Cpy 28;
    Cpy 29; Cpy 30; Cpy 31; Btf (cos 63) 32 (- cos 1) 63; Btf (cos 31) 33 (- cos 33) 62;
    Btf (cos 47) 34 (- cos 17) 61; Btf (cos 15) 35 (- cos 49) 60; Btf (cos 55) 36 (- cos 9) 59;
    Btf (cos 23) 37 (- cos 41) 58; Btf (cos 39) 38 (- cos 25) 57; Btf (cos 7) 39 (- cos 57) 56;
    Btf (cos 59) 40 (- cos 5) 55; Btf (cos 27) 41 (- cos 37) 54; Btf (cos 43) 42 (- cos 21) 53;
    Btf (cos 11) 43 (- cos 53) 52; Btf (cos 51) 44 (- cos 13) 51; Btf (cos 19) 45 (- cos 45) 50;
    Btf (cos 35) 46 (- cos 29) 49; Btf (cos 3) 47 (- cos 61) 48; Btf (cos 61) 47 (cos 3) 48;
    Btf (cos 29) 46 (cos 35) 49; Btf (cos 45) 45 (cos 19) 50; Btf (cos 13) 44 (cos 51) 51;
    Btf (cos 53) 43 (cos 11) 52; Btf (cos 21) 42 (cos 43) 53; Btf (cos 37) 41 (cos 27) 54;
    Btf (cos 5) 40 (cos 59) 55; Btf (cos 57) 39 (cos 7) 56; Btf (cos 25) 38 (cos 39) 57; Btf (cos 41) 37 (cos 23) 58;
    Btf (cos 9) 36 (cos 55) 59; Btf (cos 49) 35 (cos 15) 60; Btf (cos 17) 34 (cos 47) 61;
    Btf (cos 33) 33 (cos 31) 62; Btf (cos 1) 32 (cos 63) 63];
  [
    Cpy 0; Cpy 1; Cpy 2; Cpy 3; Cpy 4; Cpy 5; Cpy 6; Cpy 7; Cpy 8; Cpy 9; Cpy 10; Cpy 11; Cpy 12; Cpy 13; Cpy 14;
    Cpy 15; Btf (cos 62) 16 (- cos 2) 31; Btf (cos 30) 17 (- cos 34) 30; Btf (cos 46) 18 (- cos 18) 29;
    Btf (cos 14) 19 (- cos 50) 28; Btf (cos 54) 20 (- cos 10) 27; Btf (cos 22) 21 (- cos 42) 26;
    Btf (cos 38) 22 (- cos 26) 25; Btf (cos 6) 23 (- cos 58) 24; Btf (cos 58) 23 (cos 6) 24;
    Btf (cos 26) 22 (cos 38) 25; Btf (cos 42) 21 (cos 22) 26; Btf (cos 10) 20 (cos 54) 27;
    Btf (cos 50) 19 (cos 14) 28; Btf (cos 18) 18 (cos 46) 29; Btf (cos 34) 17 (cos 30) 30;
    Btf (cos 2) 16 (cos 62) 31; Add 32 33; Sub 32 33; NegAdd 34 35; Add 34 35; Add 36 37; Sub 36 37; NegAdd 38 39;
    Add 38 39; Add 40 41; Sub 40 41; NegAdd 42 43; Add 42 43; Add 44 45; Sub 44 45; NegAdd 46 47; Add 46 47;
    Add 48 49; Sub 48 49; NegAdd 50 51; Add 50 51; Add 52 53; Sub 52 53; NegAdd 54 55; Add 54 55; Add 56 57;
    Sub 56 57; NegAdd 58 59; Add 58 59; Add 60 61; Sub 60 61; NegAdd 62 63; Add 62 63];
  [
    Cpy 0; Cpy 1; Cpy 2; Cpy 3; Cpy 4; Cpy 5; Cpy 6; Cpy 7; Btf (cos 60) 8 (- cos 4) 15;
    Btf (cos 28) 9 (- cos 36) 14; Btf (cos 44) 10 (- cos 20) 13; Btf (cos 12) 11 (- cos 52) 12;
    Btf (cos 52) 11 (cos 12) 12; Btf (cos 20) 10 (cos 44) 13; Btf (cos 36) 9 (cos 28) 14; Btf (cos 4) 8 (cos 60) 15;
    Add 16 17; Sub 16 17; NegAdd 18 19; Add 18 19; Add 20 21; Sub 20 21; NegAdd 22 23; Add 22 23; Add 24 25;
    Sub 24 25; NegAdd 26 27; Add 26 27; Add 28 29; Sub 28 29; NegAdd 30 31; Add 30 31; Cpy 32;
    Btf (- cos 4) 33 (cos 60) 62; Btf (- cos 60) 34 (- cos 4) 61; Cpy 35; Cpy 36; Btf (- cos 36) 37 (cos 28) 58;
    Btf (- cos 28) 38 (- cos 36) 57; Cpy 39; Cpy 40; Btf (- cos 20) 41 (cos 44) 54; Btf (- cos 44) 42 (- cos 20) 53;
    Cpy 43; Cpy 44; Btf (- cos 52) 45 (cos 12) 50; Btf (- cos 12) 46 (- cos 52) 49; Cpy 47; Cpy 48;
    Btf (- cos 52) 46 (cos 12) 49; Btf (cos 12) 45 (cos 52) 50; Cpy 51; Cpy 52; Btf (- cos 20) 42 (cos 44) 53;
    Btf (cos 44) 41 (cos 20) 54; Cpy 55; Cpy 56; Btf (- cos 36) 38 (cos 28) 57; Btf (cos 28) 37 (cos 36) 58; Cpy 59;
    Cpy 60; Btf (- cos 4) 34 (cos 60) 61; Btf (cos 60) 33 (cos 4) 62; Cpy 63];
  [
    Cpy 0; Cpy 1; Cpy 2; Cpy 3; Btf (cos 56) 4 (- cos 8) 7; Btf (cos 24) 5 (- cos 40) 6; Btf (cos 40) 5 (cos 24) 6;
    Btf (cos 8) 4 (cos 56) 7; Add 8 9; Sub 8 9; NegAdd 10 11; Add 10 11; Add 12 13; Sub 12 13; NegAdd 14 15;
    Add 14 15; Cpy 16; Btf (- cos 8) 17 (cos 56) 30; Btf (- cos 56) 18 (- cos 8) 29; Cpy 19; Cpy 20;
    Btf (- cos 40) 21 (cos 24) 26; Btf (- cos 24) 22 (- cos 40) 25; Cpy 23; Cpy 24; Btf (- cos 40) 22 (cos 24) 25;
    Btf (cos 24) 21 (cos 40) 26; Cpy 27; Cpy 28; Btf (- cos 8) 18 (cos 56) 29; Btf (cos 56) 17 (cos 8) 30; Cpy 31;
    Add 32 35; Add 33 34; Sub 33 34; Sub 32 35; NegAdd 36 39; NegAdd 37 38; Add 37 38; Add 36 39; Add 40 43;
    Add 41 42; Sub 41 42; Sub 40 43; NegAdd 44 47; NegAdd 45 46; Add 45 46; Add 44 47; Add 48 51; Add 49 50;
    Sub 49 50; Sub 48 51; NegAdd 52 55; NegAdd 53 54; Add 53 54; Add 52 55; Add 56 59; Add 57 58; Sub 57 58;
    Sub 56 59; NegAdd 60 63; NegAdd 61 62; Add 61 62; Add 60 63];
  [
    Btf (cos 32) 0 (cos 32) 1; Btf (cos 32) 0 (- cos 32) 1; Btf (cos 48) 2 (- cos 16) 3; Btf (cos 16) 2 (cos 48) 3;
    Add 4 5; Sub 4 5; NegAdd 6 7; Add 6 7; Cpy 8; Btf (- cos 16) 9 (cos 48) 14; Btf (- cos 48) 10 (- cos 16) 13;
    Cpy 11; Cpy 12; Btf (- cos 16) 10 (cos 48) 13; Btf (cos 48) 9 (cos 16) 14; Cpy 15; Add 16 19; Add 17 18;
    Sub 17 18; Sub 16 19; NegAdd 20 23; NegAdd 21 22; Add 21 22; Add 20 23; Add 24 27; Add 25 26; Sub 25 26;
    Sub 24 27; NegAdd 28 31; NegAdd 29 30; Add 29 30; Add 28 31; Cpy 32; Cpy 33; Btf (- cos 8) 34 (cos 56) 61;
    Btf (- cos 8) 35 (cos 56) 60; Btf (- cos 56) 36 (- cos 8) 59; Btf (- cos 56) 37 (- cos 8) 58; Cpy 38; Cpy 39;
    Cpy 40; Cpy 41; Btf (- cos 40) 42 (cos 24) 53; Btf (- cos 40) 43 (cos 24) 52; Btf (- cos 24) 44 (- cos 40) 51;
    Btf (- cos 24) 45 (- cos 40) 50; Cpy 46; Cpy 47; Cpy 48; Cpy 49; Btf (- cos 40) 45 (cos 24) 50;
    Btf (- cos 40) 44 (cos 24) 51; Btf (cos 24) 43 (cos 40) 52; Btf (cos 24) 42 (cos 40) 53; Cpy 54; Cpy 55; Cpy 56;
    Cpy 57; Btf (- cos 8) 37 (cos 56) 58; Btf (- cos 8) 36 (cos 56) 59; Btf (cos 56) 35 (cos 8) 60;
    Btf (cos 56) 34 (cos 8) 61; Cpy 62; Cpy 63];
  [
    Add 0 3; Add 1 2; Sub 1 2; Sub 0 3; Cpy 4; Btf (- cos 32) 5 (cos 32) 6; Btf (cos 32) 5 (cos 32) 6; Cpy 7;
    Add 8 11; Add 9 10; Sub 9 10; Sub 8 11; NegAdd 12 15; NegAdd 13 14; Add 13 14; Add 12 15; Cpy 16; Cpy 17;
    Btf (- cos 16) 18 (cos 48) 29; Btf (- cos 16) 19 (cos 48) 28; Btf (- cos 48) 20 (- cos 16) 27;
    Btf (- cos 48) 21 (- cos 16) 26; Cpy 22; Cpy 23; Cpy 24; Cpy 25; Btf (- cos 16) 21 (cos 48) 26;
    Btf (- cos 16) 20 (cos 48) 27; Btf (cos 48) 19 (cos 16) 28; Btf (cos 48) 18 (cos 16) 29; Cpy 30; Cpy 31;
    Add 32 39; Add 33 38; Add 34 37; Add 35 36; Sub 35 36; Sub 34 37; Sub 33 38; Sub 32 39; NegAdd 40 47;
    NegAdd 41 46; NegAdd 42 45; NegAdd 43 44; Add 43 44; Add 42 45; Add 41 46; Add 40 47; Add 48 55; Add 49 54;
    Add 50 53; Add 51 52; Sub 51 52; Sub 50 53; Sub 49 54; Sub 48 55; NegAdd 56 63; NegAdd 57 62; NegAdd 58 61;
    NegAdd 59 60; Add 59 60; Add 58 61; Add 57 62; Add 56 63];
  [
    Add 0 7; Add 1 6; Add 2 5; Add 3 4; Sub 3 4; Sub 2 5; Sub 1 6; Sub 0 7; Cpy 8; Cpy 9;
    Btf (- cos 32) 10 (cos 32) 13; Btf (- cos 32) 11 (cos 32) 12; Btf (cos 32) 11 (cos 32) 12;
    Btf (cos 32) 10 (cos 32) 13; Cpy 14; Cpy 15; Add 16 23; Add 17 22; Add 18 21; Add 19 20; Sub 19 20; Sub 18 21;
    Sub 17 22; Sub 16 23; NegAdd 24 31; NegAdd 25 30; NegAdd 26 29; NegAdd 27 28; Add 27 28; Add 26 29; Add 25 30;
    Add 24 31; Cpy 32; Cpy 33; Cpy 34; Cpy 35; Btf (- cos 16) 36 (cos 48) 59; Btf (- cos 16) 37 (cos 48) 58;
    Btf (- cos 16) 38 (cos 48) 57; Btf (- cos 16) 39 (cos 48) 56; Btf (- cos 48) 40 (- cos 16) 55;
    Btf (- cos 48) 41 (- cos 16) 54; Btf (- cos 48) 42 (- cos 16) 53; Btf (- cos 48) 43 (- cos 16) 52; Cpy 44;
    Cpy 45; Cpy 46; Cpy 47; Cpy 48; Cpy 49; Cpy 50; Cpy 51; Btf (- cos 16) 43 (cos 48) 52;
    Btf (- cos 16) 42 (cos 48) 53; Btf (- cos 16) 41 (cos 48) 54; Btf (- cos 16) 40 (cos 48) 55;
    Btf (cos 48) 39 (cos 16) 56; Btf (cos 48) 38 (cos 16) 57; Btf (cos 48) 37 (cos 16) 58;
    Btf (cos 48) 36 (cos 16) 59; Cpy 60; Cpy 61; Cpy 62; Cpy 63];
  [
    Add 0 15; Add 1 14; Add 2 13; Add 3 12; Add 4 11; Add 5 10; Add 6 9; Add 7 8; Sub 7 8; Sub 6 9; Sub 5 10;
    Sub 4 11; Sub 3 12; Sub 2 13; Sub 1 14; Sub 0 15; Cpy 16; Cpy 17; Cpy 18; Cpy 19; Btf (- cos 32) 20 (cos 32) 27;
    Btf (- cos 32) 21 (cos 32) 26; Btf (- cos 32) 22 (cos 32) 25; Btf (- cos 32) 23 (cos 32) 24;
    Btf (cos 32) 23 (cos 32) 24; Btf (cos 32) 22 (cos 32) 25; Btf (cos 32) 21 (cos 32) 26;
    Btf (cos 32) 20 (cos 32) 27; Cpy 28; Cpy 29; Cpy 30; Cpy 31; Add 32 47; Add 33 46; Add 34 45; Add 35 44;
    Add 36 43; Add 37 42; Add 38 41; Add 39 40; Sub 39 40; Sub 38 41; Sub 37 42; Sub 36 43; Sub 35 44; Sub 34 45;
    Sub 33 46; Sub 32 47; NegAdd 48 63; NegAdd 49 62; NegAdd 50 61; NegAdd 51 60; NegAdd 52 59; NegAdd 53 58;
    NegAdd 54 57; NegAdd 55 56; Add 55 56; Add 54 57; Add 53 58; Add 52 59; Add 51 60; Add 50 61; Add 49 62; Add 48 63];
  [
    Add 0 31; Add 1 30; Add 2 29; Add 3 28; Add 4 27; Add 5 26; Add 6 25; Add 7 24; Add 8 23; Add 9 22; Add 10 21;
    Add 11 20; Add 12 19; Add 13 18; Add 14 17; Add 15 16; Sub 15 16; Sub 14 17; Sub 13 18; Sub 12 19; Sub 11 20;
    Sub 10 21; Sub 9 22; Sub 8 23; Sub 7 24; Sub 6 25; Sub 5 26; Sub 4 27; Sub 3 28; Sub 2 29; Sub 1 30; Sub 0 31;
    Cpy 32; Cpy 33; Cpy 34; Cpy 35; Cpy 36; Cpy 37; Cpy 38; Cpy 39; Btf (- cos 32) 40 (cos 32) 55;
    Btf (- cos 32) 41 (cos 32) 54; Btf (- cos 32) 42 (cos 32) 53; Btf (- cos 32) 43 (cos 32) 52;
    Btf (- cos 32) 44 (cos 32) 51; Btf (- cos 32) 45 (cos 32) 50; Btf (- cos 32) 46 (cos 32) 49;
    Btf (- cos 32) 47 (cos 32) 48; Btf (cos 32) 47 (cos 32) 48; Btf (cos 32) 46 (cos 32) 49;
    Btf (cos 32) 45 (cos 32) 50; Btf (cos 32) 44 (cos 32) 51; Btf (cos 32) 43 (cos 32) 52;
    Btf (cos 32) 42 (cos 32) 53; Btf (cos 32) 41 (cos 32) 54; Btf (cos 32) 40 (cos 32) 55; Cpy 56; Cpy 57; Cpy 58;
    Cpy 59; Cpy 60; Cpy 61; Cpy 62; Cpy 63];
  [
    Add 0 63; Add 1 62; Add 2 61; Add 3 60; Add 4 59; Add 5 58; Add 6 57; Add 7 56; Add 8 55; Add 9 54; Add 10 53;
    Add 11 52; Add 12 51; Add 13 50; Add 14 49; Add 15 48; Add 16 47; Add 17 46; Add 18 45; Add 19 44; Add 20 43;
    Add 21 42; Add 22 41; Add 23 40; Add 24 39; Add 25 38; Add 26 37; Add 27 36; Add 28 35; Add 29 34; Add 30 33;
    Add 31 32; Sub 31 32; Sub 30 33; Sub 29 34; Sub 28 35; Sub 27 36; Sub 26 37; Sub 25 38; Sub 24 39; Sub 23 40;
    Sub 22 41; Sub 21 42; Sub 20 43; Sub 19 44; Sub 18 45; Sub 17 46; Sub 16 47; Sub 15 48; Sub 14 49; Sub 13 50;
    Sub 12 51; Sub 11 52; Sub 10 53; Sub 9 54; Sub 8 55; Sub 7 56; Sub 6 57; Sub 5 58; Sub 4 59; Sub 3 60; Sub 2 61;
    Sub 1 62; Sub 0 63]].
(* av1_iadst8, 218-297 *)
Definition iadst8_stages : list stage := [
  [
    Cpy 7; Cpy 0; Cpy 5; Cpy 2; Cpy 3; Cpy 4; Cpy 1; Cpy 6];
  [
    Btf (cos 4) 0 (cos 60) 1; Btf (cos 60) 0 (- cos 4) 1; Btf (cos 20) 2 (cos 44) 3; Btf (cos 44) 2 (- cos 20) 3;
    Btf (cos 36) 4 (cos 28) 5; Btf (cos 28) 4 (- cos 36) 5; Btf (cos 52) 6 (cos 12) 7; Btf (cos 12) 6 (- cos 52) 7];
  [
    Add 0 4; Add 1 5; Add 2 6; Add 3 7; Sub 0 4; Sub 1 5; Sub 2 6; Sub 3 7];
  [
    Cpy 0; Cpy 1; Cpy 2; Cpy 3; Btf (cos 16) 4 (cos 48) 5; Btf (cos 48) 4 (- cos 16) 5; Btf (- cos 48) 6 (cos 16) 7;
    Btf (cos 16) 6 (cos 48) 7];
  [
    Add 0 2; Add 1 3; Sub 0 2; Sub 1 3; Add 4 6; Add 5 7; Sub 4 6; Sub 5 7];
  [
    Cpy 0; Cpy 1; Btf (cos 32) 2 (cos 32) 3; Btf (cos 32) 2 (- cos 32) 3; Cpy 4; Cpy 5; Btf (cos 32) 6 (cos 32) 7;
    Btf (cos 32) 6 (- cos 32) 7];
  [
    Cpy 0; Neg 4; Cpy 6; Neg 2; Cpy 3; Neg 7; Cpy 5; Neg 1]].
(* av1_iadst16, 409-577 *)
Definition iadst16_stages : list stage := [
  [
    Cpy 15; Cpy 0; Cpy 13; Cpy 2; Cpy 11; Cpy 4; Cpy 9; Cpy 6; Cpy 7; Cpy 8; Cpy 5; Cpy 10; Cpy 3; Cpy 12; Cpy 1;
    Cpy 14];
  [
    Btf (cos 2) 0 (cos 62) 1; Btf (cos 62) 0 (- cos 2) 1; Btf (cos 10) 2 (cos 54) 3; Btf (cos 54) 2 (- cos 10) 3;
    Btf (cos 18) 4 (cos 46) 5; Btf (cos 46) 4 (- cos 18) 5; Btf (cos 26) 6 (cos 38) 7; Btf (cos 38) 6 (- cos 26) 7;
    Btf (cos 34) 8 (cos 30) 9; Btf (cos 30) 8 (- cos 34) 9; Btf (cos 42) 10 (cos 22) 11;
    Btf (cos 22) 10 (- cos 42) 11; Btf (cos 50) 12 (cos 14) 13; Btf (cos 14) 12 (- cos 50) 13;
    Btf (cos 58) 14 (cos 6) 15; Btf (cos 6) 14 (- cos 58) 15];
  [
    Add 0 8; Add 1 9; Add 2 10; Add 3 11; Add 4 12; Add 5 13; Add 6 14; Add 7 15; Sub 0 8; Sub 1 9; Sub 2 10;
    Sub 3 11; Sub 4 12; Sub 5 13; Sub 6 14; Sub 7 15];
  [
    Cpy 0; Cpy 1; Cpy 2; Cpy 3; Cpy 4; Cpy 5; Cpy 6; Cpy 7; Btf (cos 8) 8 (cos 56) 9; Btf (cos 56) 8 (- cos 8) 9;
    Btf (cos 40) 10 (cos 24) 11; Btf (cos 24) 10 (- cos 40) 11; Btf (- cos 56) 12 (cos 8) 13;
    Btf (cos 8) 12 (cos 56) 13; Btf (- cos 24) 14 (cos 40) 15; Btf (cos 40) 14 (cos 24) 15];
  [
    Add 0 4; Add 1 5; Add 2 6; Add 3 7; Sub 0 4; Sub 1 5; Sub 2 6; Sub 3 7; Add 8 12; Add 9 13; Add 10 14; Add 11 15;
    Sub 8 12; Sub 9 13; Sub 10 14; Sub 11 15];
  [
    Cpy 0; Cpy 1; Cpy 2; Cpy 3; Btf (cos 16) 4 (cos 48) 5; Btf (cos 48) 4 (- cos 16) 5; Btf (- cos 48) 6 (cos 16) 7;
    Btf (cos 16) 6 (cos 48) 7; Cpy 8; Cpy 9; Cpy 10; Cpy 11; Btf (cos 16) 12 (cos 48) 13;
    Btf (cos 48) 12 (- cos 16) 13; Btf (- cos 48) 14 (cos 16) 15; Btf (cos 16) 14 (cos 48) 15];
  [
    Add 0 2; Add 1 3; Sub 0 2; Sub 1 3; Add 4 6; Add 5 7; Sub 4 6; Sub 5 7; Add 8 10; Add 9 11; Sub 8 10; Sub 9 11;
    Add 12 14; Add 13 15; Sub 12 14; Sub 13 15];
  [
    Cpy 0; Cpy 1; Btf (cos 32) 2 (cos 32) 3; Btf (cos 32) 2 (- cos 32) 3; Cpy 4; Cpy 5; Btf (cos 32) 6 (cos 32) 7;
    Btf (cos 32) 6 (- cos 32) 7; Cpy 8; Cpy 9; Btf (cos 32) 10 (cos 32) 11; Btf (cos 32) 10 (- cos 32) 11; Cpy 12;
    Cpy 13; Btf (cos 32) 14 (cos 32) 15; Btf (cos 32) 14 (- cos 32) 15];
  [
    Cpy 0; Neg 8; Cpy 12; Neg 4; Cpy 6; Neg 14; Cpy 10; Neg 2; Cpy 3; Neg 11; Cpy 15; Neg 7; Cpy 5; Neg 13; Cpy 9;
    Neg 1]].

(** Running the stages over any kind of value *)
Record algebra (A : Type) := { zero : A; neg : A -> A; btf : Z -> A -> Z -> A -> A; add : A -> A -> A; sub : A -> A -> A; negadd : A -> A -> A }.
Arguments zero {A}. Arguments neg {A}. Arguments btf {A}. Arguments add {A}. Arguments sub {A}. Arguments negadd {A}.
Section Run.
Context {A : Type} (K : algebra A).
Definition el (v : list A) (i : Z) : A := nth (Z.to_nat i) v (zero K).
Definition eval (v : list A) (o : op) : A :=
  match o with
  | Cpy i => el v i
  | Neg i => neg K (el v i)
  | Btf w0 i w1 j => btf K w0 (el v i) w1 (el v j)
  | Add i j => add K (el v i) (el v j)
  | Sub i j => sub K (el v i) (el v j)
  | NegAdd i j => negadd K (el v i) (el v j)
  end.
Definition apply (v : list A) (s : stage) : list A := map (eval v) s.
Definition stages (l : list stage) (v : list A) : list A := fold_left apply l v.
Definition idct4 (v : list A) : list A := stages idct4_stages v.
Definition idct8 (v : list A) : list A := apply (idct4 (apply v idct8_even) ++ stages idct8_stages v) idct8_last.
Definition idct16 (v : list A) : list A := apply (idct8 (apply v idct16_even) ++ stages idct16_stages v) idct16_last.
Definition idct32 (v : list A) : list A := stages idct32_stages v.
Definition idct64 (v : list A) : list A := stages idct64_stages v.
Definition iadst8 (v : list A) : list A := stages iadst8_stages v.
Definition iadst16 (v : list A) : list A := stages iadst16_stages v.
End Run.

Definition i32 (x : Z) : Z := (x + 2 ^ 31) mod 2 ^ 32 - 2 ^ 31.
Definition clamp (v lo hi : Z) : Z := if v <? lo then lo else if hi <? v then hi else v.
(* src/transform/mod.rs 296-315 *)
Definition half_btf (w0 in0 w1 in1 : Z) : Z :=
  let result := i32 (i32 (w0 * in0) + i32 (w1 * in1)) in Z.shiftr (i32 (result + Z.shiftl 1 (12 - 1))) 12.
Definition clamp_value (value bit : Z) : Z := clamp value (- Z.shiftl 1 (bit - 1)) (Z.shiftl 1 (bit - 1) - 1).
Definition ints (range : Z) : algebra Z :=
  {| zero := 0; neg := fun x => i32 (- x); btf := half_btf; add := fun x y => clamp_value (i32 (x + y)) range;
     sub := fun x y => clamp_value (i32 (x - y)) range; negadd := fun x y => clamp_value (i32 (i32 (- x) + y)) range |}.
(* round_shift of v_frame *)
Definition round_shift (v bit : Z) : Z := Z.shiftr (v + Z.shiftr (Z.shiftl 1 bit) 1) bit.

(* 98-148; x0 - x2 cannot leave i32 *)
Definition iadst4 (v : list Z) : list Z :=
  let i k := nth (Z.to_nat k) v 0 in
  let x0 := i 0 in let x1 := i 1 in let x2 := i 2 in let x3 := i 3 in
  let s0 := i32 (1321 * x0) in let s1 := i32 (2482 * x0) in let s2 := i32 (3344 * x1) in let s3 := i32 (3803 * x2) in
  let s4 := i32 (1321 * x2) in let s5 := i32 (2482 * x3) in let s6 := i32 (3803 * x3) in
  let s7 := i32 ((x0 - x2) + x3) in
  let s0 := i32 (s0 + s3) in let s1 := i32 (s1 - s4) in let s3 := s2 in let s2 := i32 (3344 * s7) in
  let s0 := i32 (s0 + s5) in let s1 := i32 (s1 - s6) in
  let x0 := i32 (s0 + s3) in let x1 := i32 (s1 + s3) in let x2 := s2 in let x3 := i32 (s0 + s1) in
  let x3 := i32 (x3 - s3) in
  [round_shift x0 12; round_shift x1 12; round_shift x2 12; round_shift x3 12].
(* 150-155, 299-304, 579-584, 886-891 *)
Definition iidentity4 (v : list Z) : list Z := map (fun x => round_shift (i32 (5793 * x)) 12) v.
Definition iidentity8 (v : list Z) : list Z := map (fun x => 2 * x) v.
Definition iidentity16 (v : list Z) : list Z := map (fun x => round_shift (i32 (5793 * 2 * x)) 12) v.
Definition iidentity32 (v : list Z) : list Z := map (fun x => 4 * x) v.

(** INV_TXFM_FNS, 1593-1622; av1_iflipadst* 93-96, 209-212, 403-407: None is unimplemented!() *)
Inductive tx_1d := DCT | ADST | FLIPADST | IDTX.
Definition txfm_fn (k : tx_1d) (log2 range : Z) (v : list Z) : option (list Z) :=
  let adst := if log2 =? 2 then Some (iadst4 v) else if log2 =? 3 then Some (iadst8 (ints range) v)
    else if log2 =? 4 then Some (iadst16 (ints range) v) else None in
  match k with
  | DCT => if log2 =? 2 then Some (idct4 (ints range) v) else if log2 =? 3 then Some (idct8 (ints range) v)
      else if log2 =? 4 then Some (idct16 (ints range) v) else if log2 =? 5 then Some (idct32 (ints range) v)
      else if log2 =? 6 then Some (idct64 (ints range) v) else None
  | ADST => adst
  | FLIPADST => option_map (@rev Z) adst
  | IDTX => if log2 =? 2 then Some (iidentity4 v) else if log2 =? 3 then Some (iidentity8 v)
      else if log2 =? 4 then Some (iidentity16 v) else if log2 =? 5 then Some (iidentity32 v) else None
  end.
(** inverse_transform_add, 1630-1704.  The result for the sample v in row r and column c.  tx_1ds is
    get_1d_tx_types of the type (src/transform/mod.rs 342-362), shift the entry of
    INV_INTERMEDIATE_SHIFTS, rect is rect_ratio_log2. *)
Definition range_list (n : Z) : list Z := map Z.of_nat (seq 0 (Z.to_nat n)).
Definition obind {A C} (o : option A) (f : A -> option C) : option C := match o with Some a => f a | None => None end.
Section Add.
Variables (input : Z -> Z) (width_log2 height_log2 : Z) (tx_1ds : tx_1d * tx_1d) (shift bd : Z).
Definition width : Z := Z.shiftl 1 width_log2.
Definition height : Z := Z.shiftl 1 height_log2.
Definition row_val (raw : Z) : Z := if Z.abs (width_log2 - height_log2) =? 1 then round_shift (i32 (raw * 2896)) 12 else raw.
Definition temp_in (r : Z) : list Z := map (fun c =>
  if c <? Z.min width 32 then clamp_value (row_val (input (r + c * Z.min height 32))) (bd + 8) else 0) (range_list width).
Definition buffer (r c : Z) : option Z :=
  if r <? Z.min height 32 then obind (txfm_fn (snd tx_1ds) width_log2 (bd + 8) (temp_in r)) (fun l => Some (nth (Z.to_nat c) l 0)) else Some 0.
Fixpoint collect (l : list (option Z)) : option (list Z) :=
  match l with [] => Some [] | o :: l => obind o (fun x => obind (collect l) (fun t => Some (x :: t))) end.
Definition inverse_transform_add (v r c : Z) : option Z :=
  let range := Z.max (bd + 6) 16 in
  obind (collect (map (fun r => obind (buffer r c) (fun b => Some (clamp_value (round_shift b shift) range))) (range_list height)))
    (fun col => obind (txfm_fn (fst tx_1ds) height_log2 range col) (fun out =>
      Some (clamp (v + round_shift (nth (Z.to_nat r) out 0) 4) 0 (Z.shiftl 1 bd - 1)))).
End Add.
(* 1706-1711 *)
Definition INV_INTERMEDIATE_SHIFTS : list Z := [0; 1; 2; 2; 2; 0; 0; 1; 1; 1; 1; 1; 1; 1; 1; 2; 2; 2; 2].

(* src/transform/mod.rs 101-123, 138-146, 159-167: by the discriminant of TxSize *)
Definition width_log2s : list Z := [2; 3; 4; 5; 6; 2; 3; 3; 4; 4; 5; 5; 6; 2; 4; 3; 5; 4; 6].
Definition height_log2s : list Z := [2; 3; 4; 5; 6; 3; 2; 4; 3; 5; 4; 6; 5; 4; 2; 5; 3; 6; 4].
(* src/transform/mod.rs 342-362, by the discriminant of TxType (56-74) *)
Definition get_1d_tx_types : list (tx_1d * tx_1d) :=
  [(DCT, DCT); (ADST, DCT); (DCT, ADST); (ADST, ADST); (FLIPADST, DCT); (DCT, FLIPADST); (FLIPADST, FLIPADST); (ADST, FLIPADST);
   (FLIPADST, ADST); (IDTX, IDTX); (DCT, IDTX); (IDTX, DCT); (ADST, IDTX); (IDTX, ADST); (FLIPADST, IDTX); (IDTX, FLIPADST)].
Definition inverse_transform (input : Z -> Z) (tx_size tx_type bd v r c : Z) : option Z :=
  inverse_transform_add input (nth (Z.to_nat tx_size) width_log2s 0) (nth (Z.to_nat tx_size) height_log2s 0)
    (nth (Z.to_nat tx_type) get_1d_tx_types (DCT, DCT)) (nth (Z.to_nat tx_size) INV_INTERMEDIATE_SHIFTS 0) bd v r c.
