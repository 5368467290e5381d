(** The inverse transforms of the AV1 specification, sections 7.13.2 (one dimension) and 7.13.3
    (two dimensions), and the addition to the prediction in 7.12.3.  The lossless
    transform is left out. *)
From Verif Require Import Base.
Local Open Scope Z_scope.

Definition Round2 (x n : Z) : Z := if n =? 0 then x else Z.shiftr (x + Z.shiftl 1 (n - 1)) n.
Definition Clip3 (lo hi x : Z) : Z := if x <? lo then lo else if hi <? x then hi else x.
(* representable by a signed integer using r bits *)
Definition fits (r x : Z) : bool := (- 2 ^ (r - 1) <=? x) && (x <=? 2 ^ (r - 1) - 1).
Definition saturate (r x : Z) : Z := Clip3 (- 2 ^ (r - 1)) (2 ^ (r - 1) - 1) x.
Definition upto (n : Z) : list Z := map Z.of_nat (seq 0 (Z.to_nat n)).
Fixpoint brev (n : nat) (x : Z) : Z := match n with O => 0 | S m => Z.lor (Z.shiftl (Z.land x 1) (Z.of_nat m)) (brev m (Z.shiftr x 1)) end.

(** ** 7.13.2.1: butterflies *)
Definition Cos128_Lookup : list Z :=
  [4096; 4095; 4091; 4085; 4076; 4065; 4052; 4036; 4017; 3996; 3973; 3948; 3920; 3889; 3857; 3822;
   3784; 3745; 3703; 3659; 3612; 3564; 3513; 3461; 3406; 3349; 3290; 3229; 3166; 3102; 3035; 2967;
   2896; 2824; 2751; 2675; 2598; 2520; 2440; 2359; 2276; 2191; 2106; 2019; 1931; 1842; 1751; 1660;
   1567; 1474; 1380; 1285; 1189; 1092; 995; 897; 799; 700; 601; 501; 401; 301; 201; 101; 0].
Definition cos_at (i : Z) : Z := nth (Z.to_nat i) Cos128_Lookup 0.
Definition cos128 (angle : Z) : Z :=
  let angle2 := Z.land angle 255 in
  if angle2 <=? 64 then cos_at angle2 else if angle2 <=? 128 then - cos_at (128 - angle2)
  else if angle2 <=? 192 then - cos_at (angle2 - 128) else cos_at (256 - angle2).
Definition sin128 (angle : Z) : Z := cos128 (angle - 64).

Inductive instr :=
| B (a b angle : Z) (flip : bool)     (* butterfly rotation *)
| H (a b : Z) (swap : bool)           (* Hadamard rotation *)
| Pick (f : list Z)                   (* T[ i ] = copyT[ f[ i ] ] *)
| Negate (l : list Z).                (* T[ i ] = - T[ i ] for i in l *)

(* the array T over any kind of value, so that the same process runs on integers and on formulas *)
Section Run.
Context {A : Type} (zero : A) (rot : Z -> A -> A -> A * A) (sum diff : A -> A -> A) (opp : A -> A).
Definition at_ (T : list A) (i : Z) : A := nth (Z.to_nat i) T zero.
Fixpoint put (T : list A) (i : nat) (v : A) : list A :=
  match T, i with [], _ => [] | _ :: t, O => v :: t | x :: t, S j => x :: put t j v end.
Definition set_ (T : list A) (i : Z) (v : A) : list A := put T (Z.to_nat i) v.
Definition step (T : list A) (k : instr) : list A :=
  match k with
  | B a b angle flip => let '(x, y) := rot angle (at_ T a) (at_ T b) in if flip then set_ (set_ T a y) b x else set_ (set_ T a x) b y
  | H a b swap => let '(a, b) := if swap then (b, a) else (a, b) in
      let x := at_ T a in let y := at_ T b in set_ (set_ T a (sum x y)) b (diff x y)
  | Pick f => map (at_ T) f
  | Negate l => fold_left (fun T i => set_ T i (opp (at_ T i))) l T
  end.
Definition run (l : list instr) (T : list A) : list A := fold_left step l T.
End Run.
Definition rotation (angle x y : Z) : Z * Z :=
  (Round2 (x * cos128 angle - y * sin128 angle) 12, Round2 (x * sin128 angle + y * cos128 angle) 12).
(** Values of a Hadamard rotation have to be representable by r bits.  Decoders saturate; for
    conforming streams this changes nothing, see [exact]. *)
Definition process (r : Z) (l : list instr) (T : list Z) : list Z :=
  run 0 rotation (fun x y => saturate r (x + y)) (fun x y => saturate r (x - y)) Z.opp l T.
(* without saturation: None if the stream does not conform *)
Definition exact_step (r : Z) (T : list Z) (k : instr) : option (list Z) :=
  let U := step 0 rotation Z.add Z.sub Z.opp T k in
  match k with
  | H a b swap => let '(a, b) := if swap then (b, a) else (a, b) in
      if fits r (at_ 0 T a + at_ 0 T b) && fits r (at_ 0 T a - at_ 0 T b) then Some U else None
  | _ => Some U
  end.
Fixpoint exact (r : Z) (l : list instr) (T : list Z) : option (list Z) :=
  match l with [] => Some T | k :: l => match exact_step r T k with Some U => exact r l U | None => None end end.

(* stricter: the values of the butterfly rotations have to fit as well *)
Definition strict_step (r : Z) (T : list Z) (k : instr) : option (list Z) :=
  match k with
  | B a b angle flip => let '(x, y) := rotation angle (at_ 0 T a) (at_ 0 T b) in if fits r x && fits r y then exact_step r T k else None
  | _ => exact_step r T k
  end.
Fixpoint strict (r : Z) (l : list instr) (T : list Z) : bool :=
  match l with [] => true | k :: l => match strict_step r T k with Some U => strict r l U | None => false end end.

(** ** 7.13.2.3: the inverse DCT of 2^n values *)
Definition for_i (n : Z) (f : Z -> list instr) : list instr := flat_map f (upto n).
Definition odd (i : Z) : bool := Z.land i 1 =? 1.
Definition dct_process (n : Z) : list instr :=
  let when (c : bool) (l : list instr) := if c then l else [] in
  [Pick (map (brev (Z.to_nat n)) (upto (2 ^ n)))] ++
  when (n =? 6) (for_i 16 (fun i => [B (32 + i) (63 - i) (63 - 4 * brev 4 i) false])) ++
  when (5 <=? n) (for_i 8 (fun i => [B (16 + i) (31 - i) (6 + Z.shiftl (brev 3 (7 - i)) 3) false])) ++
  when (n =? 6) (for_i 16 (fun i => [H (32 + i * 2) (33 + i * 2) (odd i)])) ++
  when (4 <=? n) (for_i 4 (fun i => [B (8 + i) (15 - i) (12 + Z.shiftl (brev 2 (3 - i)) 4) false])) ++
  when (5 <=? n) (for_i 8 (fun i => [H (16 + 2 * i) (17 + 2 * i) (odd i)])) ++
  when (n =? 6) (for_i 4 (fun i => for_i 2 (fun j => [B (62 - i * 4 - j) (33 + i * 4 + j) (60 - 16 * brev 2 i + 64 * j) true]))) ++
  when (3 <=? n) (for_i 2 (fun i => [B (4 + i) (7 - i) (56 - 32 * i) false])) ++
  when (4 <=? n) (for_i 4 (fun i => [H (8 + 2 * i) (9 + 2 * i) (odd i)])) ++
  when (5 <=? n) (for_i 2 (fun i => for_i 2 (fun j => [B (30 - 4 * i - j) (17 + 4 * i + j) (24 + Z.shiftl j 6 + Z.shiftl (1 - i) 5) true]))) ++
  when (n =? 6) (for_i 8 (fun i => for_i 2 (fun j => [H (32 + i * 4 + j) (35 + i * 4 - j) (odd i)]))) ++
  for_i 2 (fun i => [B (2 * i) (2 * i + 1) (32 + 16 * i) (i =? 0)]) ++
  when (3 <=? n) (for_i 2 (fun i => [H (4 + 2 * i) (5 + 2 * i) (odd i)])) ++
  when (4 <=? n) (for_i 2 (fun i => [B (14 - i) (9 + i) (48 + 64 * i) true])) ++
  when (5 <=? n) (for_i 4 (fun i => for_i 2 (fun j => [H (16 + 4 * i + j) (19 + 4 * i - j) (odd i)]))) ++
  when (n =? 6) (for_i 2 (fun i => for_i 4 (fun j => [B (61 - i * 8 - j) (34 + i * 8 + j) (56 - i * 32 + Z.shiftr j 1 * 64) true]))) ++
  for_i 2 (fun i => [H i (3 - i) false]) ++
  when (3 <=? n) [B 6 5 32 true] ++
  when (4 <=? n) (for_i 2 (fun i => for_i 2 (fun j => [H (8 + 4 * i + j) (11 + 4 * i - j) (odd i)]))) ++
  when (5 <=? n) (for_i 4 (fun i => [B (29 - i) (18 + i) (48 + Z.shiftr i 1 * 64) true])) ++
  when (n =? 6) (for_i 4 (fun i => for_i 4 (fun j => [H (32 + 8 * i + j) (39 + 8 * i - j) (odd i)]))) ++
  when (3 <=? n) (for_i 4 (fun i => [H i (7 - i) false])) ++
  when (4 <=? n) (for_i 2 (fun i => [B (13 - i) (10 + i) 32 true])) ++
  when (5 <=? n) (for_i 2 (fun i => for_i 4 (fun j => [H (16 + 8 * i + j) (23 + 8 * i - j) (odd i)]))) ++
  when (n =? 6) (for_i 8 (fun i => [B (59 - i) (36 + i) (if i <? 4 then 48 else 112) true])) ++
  when (4 <=? n) (for_i 8 (fun i => [H i (15 - i) false])) ++
  when (5 <=? n) (for_i 4 (fun i => [B (27 - i) (20 + i) 32 true])) ++
  when (n =? 6) (for_i 8 (fun i => [H (32 + i) (47 - i) false; H (48 + i) (63 - i) true])) ++
  when (5 <=? n) (for_i 16 (fun i => [H i (31 - i) false])) ++
  when (n =? 6) (for_i 8 (fun i => [B (55 - i) (40 + i) 32 true])) ++
  when (n =? 6) (for_i 32 (fun i => [H i (63 - i) false])).

(** ** 7.13.2.4 to 7.13.2.8: the inverse ADST *)
Definition adst_in (n : Z) : instr := Pick (flat_map (fun i => [2 ^ n - 1 - 2 * i; 2 * i]) (upto (2 ^ (n - 1)))).
Definition adst_out (n : Z) : instr := Pick (map (fun i =>
  let a := Z.land (Z.shiftr i 3) 1 in
  let b := Z.lxor (Z.land (Z.shiftr i 2) 1) (Z.land (Z.shiftr i 3) 1) in
  let c := Z.lxor (Z.land (Z.shiftr i 1) 1) (Z.land (Z.shiftr i 2) 1) in
  let d := Z.lxor (Z.land i 1) (Z.land (Z.shiftr i 1) 1) in
  Z.shiftr (Z.lor (Z.lor (Z.shiftl d 3) (Z.shiftl c 2)) (Z.lor (Z.shiftl b 1) a)) (4 - n)) (upto (2 ^ n))).
Definition adst8_process : list instr :=
  [adst_in 3] ++ for_i 4 (fun i => [B (2 * i) (2 * i + 1) (60 - 16 * i) true]) ++
  for_i 4 (fun i => [H i (4 + i) false]) ++
  for_i 2 (fun i => [B (4 + 3 * i) (5 + i) (48 - 32 * i) true]) ++
  for_i 2 (fun i => for_i 2 (fun j => [H (4 * j + i) (2 + 4 * j + i) false])) ++
  for_i 2 (fun i => [B (2 + 4 * i) (3 + 4 * i) 32 true]) ++
  [adst_out 3; Negate (map (fun i => 1 + 2 * i) (upto 4))].
Definition adst16_process : list instr :=
  [adst_in 4] ++ for_i 8 (fun i => [B (2 * i) (2 * i + 1) (62 - 8 * i) true]) ++
  for_i 8 (fun i => [H i (8 + i) false]) ++
  for_i 2 (fun i => [B (8 + 2 * i) (9 + 2 * i) (56 - 32 * i) true; B (13 + 2 * i) (12 + 2 * i) (8 + 32 * i) true]) ++
  for_i 4 (fun i => for_i 2 (fun j => [H (8 * j + i) (4 + 8 * j + i) false])) ++
  for_i 2 (fun i => for_i 2 (fun j => [B (4 + 8 * j + 3 * i) (5 + 8 * j + i) (48 - 32 * i) true])) ++
  for_i 2 (fun i => for_i 4 (fun j => [H (4 * j + i) (2 + 4 * j + i) false])) ++
  for_i 4 (fun i => [B (2 + 4 * i) (3 + 4 * i) 32 true]) ++
  [adst_out 4; Negate (map (fun i => 1 + 2 * i) (upto 8))].
Definition SINPI_1_9 : Z := 1321. Definition SINPI_2_9 : Z := 2482. Definition SINPI_3_9 : Z := 3344. Definition SINPI_4_9 : Z := 3803.
Definition adst4 (T : list Z) : list Z :=
  let t i := at_ 0 T i in
  let s0 := SINPI_1_9 * t 0 in let s1 := SINPI_2_9 * t 0 in let s2 := SINPI_3_9 * t 1 in let s3 := SINPI_4_9 * t 2 in
  let s4 := SINPI_1_9 * t 2 in let s5 := SINPI_2_9 * t 3 in let s6 := SINPI_4_9 * t 3 in
  let a7 := t 0 - t 2 in let b7 := a7 + t 3 in
  let s0 := s0 + s3 in let s1 := s1 - s4 in let s3 := s2 in let s2 := SINPI_3_9 * b7 in
  let s0 := s0 + s5 in let s1 := s1 - s6 in
  let x0 := s0 + s3 in let x1 := s1 + s3 in let x2 := s2 in let x3 := s0 + s1 in let x3 := x3 - s3 in
  [Round2 x0 12; Round2 x1 12; Round2 x2 12; Round2 x3 12].
(* the variables have to be representable by r + 12 bits *)
Definition adst4_fits (r : Z) (T : list Z) : bool :=
  let t i := at_ 0 T i in
  let s0 := SINPI_1_9 * t 0 + SINPI_4_9 * t 2 in let s1 := SINPI_2_9 * t 0 - SINPI_1_9 * t 2 in
  let u0 := s0 + SINPI_2_9 * t 3 in let u1 := s1 - SINPI_4_9 * t 3 in let s3 := SINPI_3_9 * t 1 in
  forallb (fits (r + 12)) [s0; s1; u0; u1; SINPI_3_9 * (t 0 - t 2 + t 3); u0 + s3; u1 + s3; u0 + u1; u0 + u1 - s3].
(** 7.13.2.9 to 7.13.2.12: the identity *)
Definition identity (n : Z) (T : list Z) : list Z :=
  map (fun t => if n =? 2 then Round2 (t * 5793) 12 else if n =? 3 then t * 2 else if n =? 4 then Round2 (t * 11586) 12 else t * 4) T.

Inductive kind := Dct | Adst | Ident.
Definition transform (k : kind) (n r : Z) (T : list Z) : list Z :=
  match k with
  | Dct => process r (dct_process n) T
  | Adst => if n =? 2 then adst4 T else if n =? 3 then process r adst8_process T else process r adst16_process T
  | Ident => identity n T
  end.

Definition conforms (k : kind) (n r : Z) (T : list Z) : bool :=
  match k with
  | Dct => strict r (dct_process n) T
  | Adst => if n =? 2 then adst4_fits r T else if n =? 3 then strict r adst8_process T else strict r adst16_process T
  | Ident => forallb (fits r) (identity n T)
  end.

(** ** 7.13.3 *)
Inductive tx_type := DCT_DCT | ADST_DCT | DCT_ADST | ADST_ADST | FLIPADST_DCT | DCT_FLIPADST | FLIPADST_FLIPADST | ADST_FLIPADST
  | FLIPADST_ADST | IDTX | V_DCT | H_DCT | V_ADST | H_ADST | V_FLIPADST | H_FLIPADST.
Definition tx_types : list tx_type := [DCT_DCT; ADST_DCT; DCT_ADST; ADST_ADST; FLIPADST_DCT; DCT_FLIPADST; FLIPADST_FLIPADST; ADST_FLIPADST;
  FLIPADST_ADST; IDTX; V_DCT; H_DCT; V_ADST; H_ADST; V_FLIPADST; H_FLIPADST].
Definition row_kind (t : tx_type) : kind :=
  match t with
  | DCT_DCT | ADST_DCT | FLIPADST_DCT | H_DCT => Dct
  | DCT_ADST | ADST_ADST | FLIPADST_ADST | H_ADST | DCT_FLIPADST | FLIPADST_FLIPADST | ADST_FLIPADST | H_FLIPADST => Adst
  | _ => Ident
  end.
Definition col_kind (t : tx_type) : kind :=
  match t with
  | DCT_DCT | DCT_ADST | DCT_FLIPADST | V_DCT => Dct
  | ADST_DCT | ADST_ADST | ADST_FLIPADST | V_ADST | FLIPADST_DCT | FLIPADST_ADST | FLIPADST_FLIPADST | V_FLIPADST => Adst
  | _ => Ident
  end.
Definition flipUD (t : tx_type) : bool := match t with FLIPADST_DCT | FLIPADST_ADST | V_FLIPADST | FLIPADST_FLIPADST => true | _ => false end.
Definition flipLR (t : tx_type) : bool := match t with DCT_FLIPADST | ADST_FLIPADST | H_FLIPADST | FLIPADST_FLIPADST => true | _ => false end.
(* TX_4X4, 8X8, 16X16, 32X32, 64X64, 4X8, 8X4, 8X16, 16X8, 16X32, 32X16, 32X64, 64X32, 4X16, 16X4, 8X32, 32X8, 16X64, 64X16 *)
Definition Tx_Width_Log2 : list Z := [2; 3; 4; 5; 6; 2; 3; 3; 4; 4; 5; 5; 6; 2; 4; 3; 5; 4; 6].
Definition Tx_Height_Log2 : list Z := [2; 3; 4; 5; 6; 3; 2; 4; 3; 5; 4; 6; 5; 4; 2; 5; 3; 6; 4].
Definition Transform_Row_Shift : list Z := [0; 1; 2; 2; 2; 0; 0; 1; 1; 1; 1; 1; 1; 1; 1; 2; 2; 2; 2].
Definition tab (l : list Z) (i : Z) : Z := nth (Z.to_nat i) l 0.
Section Inverse.
Variables (bd : Z) (txSz : Z) (t : tx_type) (Dequant : Z -> Z -> Z).
Let log2W := tab Tx_Width_Log2 txSz.
Let log2H := tab Tx_Height_Log2 txSz.
Let w := 2 ^ log2W.
Let h := 2 ^ log2H.
Definition row_in (i : Z) : list Z := map (fun j =>
  let x := if (i <? 32) && (j <? 32) then Dequant i j else 0 in
  let x := if Z.abs (log2W - log2H) =? 1 then Round2 (x * 2896) 12 else x in
  saturate (bd + 8) x) (upto w).
Definition after_rows (i j : Z) : Z :=
  saturate (Z.max (bd + 6) 16) (Round2 (at_ 0 (transform (row_kind t) log2W (bd + 8) (row_in i)) j) (tab Transform_Row_Shift txSz)).
Definition Residual (i j : Z) : Z :=
  Round2 (at_ 0 (transform (col_kind t) log2H (Z.max (bd + 6) 16) (map (fun i => after_rows i j) (upto h))) i) 4.
(* 7.12.3: the sample in row y and column x of the block, predicted as p *)
Definition reconstruct (p y x : Z) : Z :=
  Clip3 0 (2 ^ bd - 1) (p + Residual (if flipUD t then h - 1 - y else y) (if flipLR t then w - 1 - x else x)).
End Inverse.
