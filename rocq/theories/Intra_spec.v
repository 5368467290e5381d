(** Intra prediction in a decoder, from the AV1 specification: 7.11.2 (the general process,
    with directional, DC, smooth and Paeth prediction, the intra edge filter and the
    upsampling), 7.11.5 (chroma from luma) and get_filter_type of 7.11.2.8.  Nothing here
    refers to the encoder. *)
From Verif Require Import Base.
Local Open Scope Z_scope.

Definition Round2 (x n : Z) : Z := if n =? 0 then x else Z.shiftr (x + Z.shiftl 1 (n - 1)) n.
Definition Round2Signed (x n : Z) : Z := if x <? 0 then - Round2 (- x) n else Round2 x n.
Definition Clip3 (lo hi x : Z) : Z := if x <? lo then lo else if hi <? x then hi else x.
Definition Clip1 (bd x : Z) : Z := Clip3 0 (2 ^ bd - 1) x.
(* sum of f 0 .. f (n - 1) *)
Fixpoint sum (f : Z -> Z) (n : nat) : Z := match n with O => 0 | S m => sum f m + f (Z.of_nat m) end.

Inductive mode := DC | V | H | D45 | D135 | D113 | D157 | D203 | D67 | SMOOTH | SMOOTH_V | SMOOTH_H | PAETH | UV_CFL.
Definition Mode_To_Angle (m : mode) : Z :=
  match m with V => 90 | H => 180 | D45 => 45 | D135 => 135 | D113 => 113 | D157 => 157 | D203 => 203 | D67 => 67 | _ => 0 end.
Definition is_directional_mode (m : mode) : bool :=
  match m with V | H | D45 | D135 | D113 | D157 | D203 | D67 => true | _ => false end.

Definition Dr_Intra_Derivative (a : Z) : Z :=
  nth (Z.to_nat a)
   [0; 0; 0; 1023; 0; 0; 547; 0; 0; 372; 0; 0; 0; 0; 273; 0; 0; 215; 0; 0; 178; 0; 0; 151; 0; 0; 132; 0; 0; 116;
    0; 0; 102; 0; 0; 0; 90; 0; 0; 80; 0; 0; 71; 0; 0; 64; 0; 0; 57; 0; 0; 51; 0; 0; 45; 0; 0; 0; 40; 0;
    0; 35; 0; 0; 31; 0; 0; 27; 0; 0; 23; 0; 0; 19; 0; 0; 15; 0; 0; 0; 0; 11; 0; 0; 7; 0; 0; 3; 0; 0] 0.

Definition Sm_Weights (n k : Z) : Z :=
  nth (Z.to_nat k)
   (if n =? 4 then [255; 149; 85; 64]
    else if n =? 8 then [255; 197; 146; 105; 73; 50; 37; 32]
    else if n =? 16 then [255; 225; 196; 170; 145; 123; 102; 84; 68; 54; 43; 33; 26; 20; 17; 16]
    else if n =? 32 then [255; 240; 225; 210; 196; 182; 169; 157; 145; 133; 122; 111; 101; 92; 83; 74;
      66; 59; 52; 45; 39; 34; 29; 25; 21; 17; 14; 12; 10; 9; 8; 8]
    else [255; 248; 240; 233; 225; 218; 210; 203; 196; 189; 182; 176; 169; 163; 156; 150;
      144; 138; 133; 127; 121; 116; 111; 106; 101; 96; 91; 86; 82; 77; 73; 69;
      65; 61; 57; 54; 50; 47; 44; 41; 38; 35; 32; 29; 27; 25; 22; 20;
      18; 16; 15; 13; 12; 10; 9; 8; 7; 6; 6; 5; 5; 4; 4; 4]) 0.

(** Edges are functions of an index from -1 (or -2 after upsampling). *)
Section Process.
Variables (bd w h : Z) (haveLeft haveAbove : bool).

(* 7.11.2.9 *)
Definition filter_strength (smooth : bool) (delta : Z) : Z :=
  let blkWh := w + h in
  let d := Z.abs delta in
  if negb smooth then
    if blkWh <=? 8 then (if 56 <=? d then 1 else 0)
    else if blkWh <=? 16 then (if 40 <=? d then 1 else 0)
    else if blkWh <=? 24 then (if 32 <=? d then 3 else if 16 <=? d then 2 else if 8 <=? d then 1 else 0)
    else if blkWh <=? 32 then (if 32 <=? d then 3 else if 4 <=? d then 2 else 1)
    else 3
  else
    if blkWh <=? 8 then (if 64 <=? d then 2 else if 40 <=? d then 1 else 0)
    else if blkWh <=? 16 then (if 48 <=? d then 2 else if 20 <=? d then 1 else 0)
    else if blkWh <=? 24 then (if 4 <=? d then 3 else 0)
    else 3.
(* 7.11.2.10 *)
Definition use_upsample (smooth : bool) (delta : Z) : bool :=
  let d := Z.abs delta in
  if (d <=? 0) || (40 <=? d) then false else if negb smooth then w + h <=? 16 else w + h <=? 8.
(* 7.11.2.12 *)
Definition kernel (strength j : Z) : Z :=
  nth (Z.to_nat j) (nth (Z.to_nat (strength - 1)) [[0; 4; 8; 4; 0]; [0; 5; 6; 5; 0]; [2; 4; 4; 4; 2]] []) 0.
Definition edge_filter (sz strength : Z) (E : Z -> Z) : Z -> Z :=
  if strength =? 0 then E
  else fun p => if (0 <=? p) && (p <? sz - 1)
    then Z.shiftr (sum (fun j => kernel strength j * E (Clip3 0 (sz - 1) (p + 1 - 2 + j) - 1)) 5 + 8) 4
    else E p.
(* 7.11.2.11 *)
Definition upsample (numPx : Z) (E : Z -> Z) : Z -> Z :=
  let dup k := if k =? 0 then E (-1) else if k =? numPx + 2 then E (numPx - 1) else E (k - 2) in
  fun p => if p =? -2 then dup 0
    else if Z.odd p then
      (let i := (p + 1) / 2 in Clip1 bd (Round2 (- dup i + 9 * dup (i + 1) + 9 * dup (i + 2) - dup (i + 3)) 4))
    else dup (p / 2 + 2).
(* 7.11.2.7 *)
Definition filter_corner (Above Left : Z -> Z) : Z := Round2 (Left 0 * 5 + Above (-1) * 6 + Above 0 * 5) 4.

(* 7.11.2.4: room to the right of x and below y in the frame is rw, rh *)
Definition directional (rw rh : Z) (enable_filter smooth : bool) (Above Left : Z -> Z) (pAngle i j : Z) : Z :=
  let fc := enable_filter && (90 <? pAngle) && (pAngle <? 180) && (24 <=? w + h) in
  let corner E := fun p => if (p =? -1) && fc then filter_corner Above Left else E p in
  let A1 := corner Above in
  let L1 := corner Left in
  let diag := enable_filter && negb (pAngle =? 90) && negb (pAngle =? 180) in
  let A2 := if diag && haveAbove
    then edge_filter (Z.min w rw + (if pAngle <? 90 then h else 0) + 1) (filter_strength smooth (pAngle - 90)) A1 else A1 in
  let L2 := if diag && haveLeft
    then edge_filter (Z.min h rh + (if 180 <? pAngle then w else 0) + 1) (filter_strength smooth (pAngle - 180)) L1 else L1 in
  let upA := enable_filter && use_upsample smooth (pAngle - 90) in
  let upL := enable_filter && use_upsample smooth (pAngle - 180) in
  let A := if upA then upsample (w + (if pAngle <? 90 then h else 0)) A2 else A2 in
  let L := if upL then upsample (h + (if 180 <? pAngle then w else 0)) L2 else L2 in
  let ua := if upA then 1 else 0 in
  let ul := if upL then 1 else 0 in
  let dx := if pAngle <? 90 then Dr_Intra_Derivative pAngle else Dr_Intra_Derivative (180 - pAngle) in
  let dy := if pAngle <? 180 then Dr_Intra_Derivative (pAngle - 90) else Dr_Intra_Derivative (270 - pAngle) in
  if pAngle <? 90 then
    let idx := (i + 1) * dx in
    let base := Z.shiftr idx (6 - ua) + Z.shiftl j ua in
    let shift := Z.land (Z.shiftr (Z.shiftl idx ua) 1) 31 in
    let maxBaseX := Z.shiftl (w + h - 1) ua in
    if base <? maxBaseX then Round2 (A base * (32 - shift) + A (base + 1) * shift) 5 else A maxBaseX
  else if (90 <? pAngle) && (pAngle <? 180) then
    let idx := Z.shiftl j 6 - (i + 1) * dx in
    let base := Z.shiftr idx (6 - ua) in
    if - Z.shiftl 1 ua <=? base then
      let shift := Z.land (Z.shiftr (Z.shiftl idx ua) 1) 31 in
      Round2 (A base * (32 - shift) + A (base + 1) * shift) 5
    else
      let idx := Z.shiftl i 6 - (j + 1) * dy in
      let base := Z.shiftr idx (6 - ul) in
      let shift := Z.land (Z.shiftr (Z.shiftl idx ul) 1) 31 in
      Round2 (L base * (32 - shift) + L (base + 1) * shift) 5
  else if 180 <? pAngle then
    let idx := (j + 1) * dy in
    let base := Z.shiftr idx (6 - ul) + Z.shiftl i ul in
    let shift := Z.land (Z.shiftr (Z.shiftl idx ul) 1) 31 in
    Round2 (L base * (32 - shift) + L (base + 1) * shift) 5
  else if pAngle =? 90 then A j else L i.

(* 7.11.2.5 *)
Definition dc_pred (Above Left : Z -> Z) : Z :=
  if haveLeft && haveAbove then (sum Left (Z.to_nat h) + sum Above (Z.to_nat w) + Z.shiftr (w + h) 1) / (w + h)
  else if haveLeft then Z.shiftr (sum Left (Z.to_nat h) + Z.shiftr h 1) (Z.log2 h)
  else if haveAbove then Z.shiftr (sum Above (Z.to_nat w) + Z.shiftr w 1) (Z.log2 w)
  else 2 ^ (bd - 1).
(* 7.11.2.6 *)
Definition smooth_pred (Above Left : Z -> Z) (i j : Z) : Z :=
  Round2 (Sm_Weights h i * Above j + (256 - Sm_Weights h i) * Left (h - 1) +
          Sm_Weights w j * Left i + (256 - Sm_Weights w j) * Above (w - 1)) 9.
Definition smooth_v_pred (Above Left : Z -> Z) (i j : Z) : Z :=
  Round2 (Sm_Weights h i * Above j + (256 - Sm_Weights h i) * Left (h - 1)) 8.
Definition smooth_h_pred (Above Left : Z -> Z) (i j : Z) : Z :=
  Round2 (Sm_Weights w j * Left i + (256 - Sm_Weights w j) * Above (w - 1)) 8.
(* 7.11.2.2 *)
Definition paeth_pred (Above Left : Z -> Z) (i j : Z) : Z :=
  let base := Above j + Left i - Above (-1) in
  let pLeft := Z.abs (base - Left i) in
  let pTop := Z.abs (base - Above j) in
  let pTopLeft := Z.abs (base - Above (-1)) in
  if (pLeft <=? pTop) && (pLeft <=? pTopLeft) then Left i
  else if pTop <=? pTopLeft then Above j else Above (-1).

(* 7.11.2: the prediction of a block; UV_CFL starts from DC *)
Definition predict_intra (rw rh : Z) (enable_filter smooth : bool) (m : mode) (angleDelta : Z) (Above Left : Z -> Z) (i j : Z) : Z :=
  if is_directional_mode m then directional rw rh enable_filter smooth Above Left (Mode_To_Angle m + angleDelta * 3) i j
  else match m with
  | PAETH => paeth_pred Above Left i j
  | SMOOTH => smooth_pred Above Left i j
  | SMOOTH_V => smooth_v_pred Above Left i j
  | SMOOTH_H => smooth_h_pred Above Left i j
  | _ => dc_pred Above Left
  end.

(* 7.11.5: startX, startY in the chroma plane, MaxLumaW and MaxLumaH as left by transform_block *)
Section CFL.
Variables (subX subY startX startY MaxLumaW MaxLumaH : Z) (Luma : Z -> Z -> Z).
Definition cfl_L (i j : Z) : Z :=
  let lumaY := Z.min (Z.shiftl (startY + i) subY) (MaxLumaH - Z.shiftl 1 subY) in
  let lumaX := Z.min (Z.shiftl (startX + j) subX) (MaxLumaW - Z.shiftl 1 subX) in
  Z.shiftl (sum (fun dy => sum (fun dx => Luma (lumaY + dy) (lumaX + dx)) (Z.to_nat (subX + 1))) (Z.to_nat (subY + 1))) (3 - subX - subY).
Definition cfl_avg : Z :=
  Round2 (sum (fun i => sum (fun j => cfl_L i j) (Z.to_nat w)) (Z.to_nat h)) (Z.log2 w + Z.log2 h).
Definition predict_chroma_from_luma (alpha dc i j : Z) : Z :=
  Clip1 bd (dc + Round2Signed (alpha * (cfl_L i j - cfl_avg)) 6).
End CFL.
End Process.

(** MaxLumaW and MaxLumaH, 5.11.35: transform_block sets them for each luma transform block inside
    the frame (fw x fh), in the raster order of residual.  The block is at x, y with size
    bw x bh, its transform blocks have size tw x th. *)
Definition count (n : Z) : list Z := map Z.of_nat (seq 0 (Z.to_nat n)).
Definition MaxLuma (fw fh x y bw bh tw th : Z) : Z * Z :=
  fold_left (fun m p => if (x + fst p * tw <? fw) && (y + snd p * th <? fh) then (x + fst p * tw + tw, y + snd p * th + th) else m)
    (flat_map (fun i => map (fun j => (j, i)) (count (bw / tw))) (count (bh / th))) (0, 0).

(** 7.11.2.8: whether a neighbour was predicted smoothly.  YMode, UVMode and Inter describe the
    block covering a position of the frame; availU and availL are AvailU and AvailL or their
    chroma versions. *)
Section FilterType.
Variables (YMode UVMode : Z -> Z -> mode) (Inter : Z -> Z -> bool).
Definition smooth_mode (m : mode) : bool := match m with SMOOTH | SMOOTH_V | SMOOTH_H => true | _ => false end.
Definition is_smooth (plane row col : Z) : bool :=
  if plane =? 0 then smooth_mode (YMode row col)
  else if Inter row col then false else smooth_mode (UVMode row col).
Definition get_filter_type (plane subX subY MiRow MiCol : Z) (availU availL : bool) : bool :=
  let aboveSmooth :=
    if availU then
      is_smooth plane (if (0 <? plane) && (subY =? 1) && Z.odd MiRow then MiRow - 2 else MiRow - 1)
                      (if (0 <? plane) && (subX =? 1) && Z.even MiCol then MiCol + 1 else MiCol)
    else false in
  let leftSmooth :=
    if availL then
      is_smooth plane (if (0 <? plane) && (subY =? 1) && Z.even MiRow then MiRow + 1 else MiRow)
                      (if (0 <? plane) && (subX =? 1) && Z.odd MiCol then MiCol - 2 else MiCol - 1)
    else false in
  aboveSmooth || leftSmooth.
End FilterType.
