(** The deblocking filter of the AV1 specification (7.14), written from the
    specification.  It does not use the model of the encoder. *)
From Verif Require Import Base.
Open Scope Z_scope.

Definition Clip3 (lo hi x : Z) : Z := if x <? lo then lo else if hi <? x then hi else x.
Definition Round2 (x n : Z) : Z := (x + 2 ^ n / 2) / 2 ^ n.

(** ** 7.14.6: filtering of one line across an edge.  [s i] is the sample at distance
    [i] of the edge: [s 0] is q0, [s (-1)] is p0. *)
Section Line.
Variables (plane filterSize bd lvl : Z) (s : Z -> Z).
Definition q (i : Z) : Z := s i.
Definition p (i : Z) : Z := s (- 1 - i).
(* 7.14.6.2; the sharpness is 0 *)
Definition limit : Z := Z.max 1 lvl.
Definition blimit : Z := 2 * (lvl + 2) + limit.
Definition thresh : Z := lvl / 2 ^ 4.
Definition shl (x : Z) : Z := x * 2 ^ (bd - 8).
Definition hevMask : bool := (shl thresh <? Z.abs (p 1 - p 0)) || (shl thresh <? Z.abs (q 1 - q 0)).
Definition filterLen : Z :=
  if filterSize =? 4 then 4 else if negb (plane =? 0) then 6 else if filterSize =? 8 then 8 else 16.
Definition filterMask : bool :=
  negb ((shl limit <? Z.abs (p 1 - p 0)) || (shl limit <? Z.abs (q 1 - q 0)) ||
        (shl blimit <? Z.abs (p 0 - q 0) * 2 + Z.abs (p 1 - q 1) / 2) ||
        ((6 <=? filterLen) && ((shl limit <? Z.abs (p 2 - p 1)) || (shl limit <? Z.abs (q 2 - q 1)))) ||
        ((8 <=? filterLen) && ((shl limit <? Z.abs (p 3 - p 2)) || (shl limit <? Z.abs (q 3 - q 2))))).
Definition near (a b : Z) : bool := Z.abs (a - b) <=? shl 1.
Definition flatMask : bool :=
  (8 <=? filterSize) &&
  near (p 1) (p 0) && near (q 1) (q 0) && near (p 2) (p 0) && near (q 2) (q 0) &&
  (if 8 <=? filterLen then near (p 3) (p 0) && near (q 3) (q 0) else true).
Definition flatMask2 : bool :=
  (16 <=? filterSize) &&
  near (p 6) (p 0) && near (q 6) (q 0) && near (p 5) (p 0) && near (q 5) (q 0) &&
  near (p 4) (p 0) && near (q 4) (q 0).

(* 7.14.6.3: narrow filter *)
Definition filter4_clamp (x : Z) : Z := Clip3 (- 2 ^ (bd - 1)) (2 ^ (bd - 1) - 1) x.
Definition narrow (i : Z) : Z :=
  let mid := shl 128 in
  let ps1 := p 1 - mid in let ps0 := p 0 - mid in
  let qs0 := q 0 - mid in let qs1 := q 1 - mid in
  let filter := if hevMask then filter4_clamp (ps1 - qs1) else 0 in
  let filter := filter4_clamp (filter + 3 * (qs0 - ps0)) in
  let filter1 := filter4_clamp (filter + 4) / 2 ^ 3 in
  let filter2 := filter4_clamp (filter + 3) / 2 ^ 3 in
  if i =? 0 then filter4_clamp (qs0 - filter1) + mid
  else if i =? -1 then filter4_clamp (ps0 + filter2) + mid
  else if hevMask then s i
  else
    let filter := Round2 filter1 1 in
    if i =? 1 then filter4_clamp (qs1 - filter) + mid
    else if i =? -2 then filter4_clamp (ps1 + filter) + mid
    else s i.

(* 7.14.6.4: wide filter *)
Definition wide (log2Size i : Z) : Z :=
  let n := if log2Size =? 4 then 6 else if plane =? 0 then 3 else 2 in
  let n2 := if (log2Size =? 3) && (plane =? 0) then 0 else 1 in
  if (- n <=? i) && (i <? n) then
    let t := fold_left (fun t j =>
      t + s (Clip3 (- (n + 1)) n (i + j)) * (if Z.abs j <=? n2 then 2 else 1))
      (map (fun k => Z.of_nat k - n) (seq 0 (Z.to_nat (2 * n + 1)))) 0 in
    Round2 t log2Size
  else s i.

(* 7.14.6.1 *)
Definition line (i : Z) : Z :=
  if negb filterMask then s i
  else if (filterSize =? 4) || negb flatMask then narrow i
  else if (filterSize =? 8) || negb flatMask2 then wide 3 i
  else wide 4 i.
End Line.

(** ** 7.14.2 to 7.14.5: edges.  Per 4x4 unit of luma the decoder knows the block size,
    the transform size, skip, the reference frame and the mode type. *)
Record unit_info := {
  u_bw : Z; u_bh : Z;      (* block width and height in luma samples *)
  u_tw : Z; u_th : Z;      (* luma transform size in samples *)
  u_skip : bool;
  u_ref : Z;               (* RefFrame[0], 0 for intra *)
  u_mode : bool            (* modeType *)
}.
Record lf_params := {
  loop_filter_level : Z -> Z;
  loop_filter_delta_enabled : bool;
  loop_filter_ref_deltas : Z -> Z;
  loop_filter_mode_deltas : Z -> Z
}.

Section Frame.
Variables (h : lf_params) (info : Z -> Z -> unit_info) (plane bd subX subY FrameWidth FrameHeight : Z).
Definition sx : Z := if plane =? 0 then 0 else subX.
Definition sy : Z := if plane =? 0 then 0 else subY.

(* get_plane_residual_size, get_tx_size: chroma transforms are the largest that fit
   the block, of at most 32 samples on a side *)
Definition plane_bw (u : unit_info) : Z := Z.max 4 (u_bw u / 2 ^ sx).
Definition plane_bh (u : unit_info) : Z := Z.max 4 (u_bh u / 2 ^ sy).
Definition lf_tx_w (u : unit_info) : Z := if plane =? 0 then u_tw u else Z.min 32 (plane_bw u).
Definition lf_tx_h (u : unit_info) : Z := if plane =? 0 then u_th u else Z.min 32 (plane_bh u).

(* 7.14.4; delta_lf_present = 0 and no segmentation feature for the loop filter *)
Definition lvl_of (u : unit_info) (pass : Z) : Z :=
  let i := if plane =? 0 then pass else plane + 1 in
  let lvlSeg := Clip3 0 63 (loop_filter_level h i) in
  if loop_filter_delta_enabled h then
    let nShift := lvlSeg / 32 in
    if u_ref u =? 0 then Clip3 0 63 (lvlSeg + loop_filter_ref_deltas h 0 * 2 ^ nShift)
    else Clip3 0 63 (lvlSeg + loop_filter_ref_deltas h (u_ref u) * 2 ^ nShift +
                     loop_filter_mode_deltas h (if u_mode u then 1 else 0) * 2 ^ nShift)
  else lvlSeg.

(* 7.14.2: one edge of pass 0 (vertical edges) or 1 (horizontal edges); [s] is the
   current frame, by row and column *)
Definition edge_filter (pass row col : Z) (s : Z -> Z -> Z) : Z -> Z -> Z :=
  let x := col * 4 in
  let y := row * 4 in
  let onScreen := (x <? FrameWidth) && (y <? FrameHeight) &&
                  (if pass =? 0 then negb (x =? 0) else negb (y =? 0)) in
  let row := Z.lor row sy in
  let col := Z.lor col sx in
  let xP := x / 2 ^ sx in
  let yP := y / 2 ^ sy in
  let prevRow := if pass =? 0 then row else row - 2 ^ sy in
  let prevCol := if pass =? 0 then col - 2 ^ sx else col in
  let u := info row col in
  let prev := info prevRow prevCol in
  let isBlockEdge := if pass =? 0 then xP mod plane_bw u =? 0 else yP mod plane_bh u =? 0 in
  let isTxEdge := if pass =? 0 then xP mod lf_tx_w u =? 0 else yP mod lf_tx_h u =? 0 in
  let applyFilter := isTxEdge && (isBlockEdge || negb (u_skip u) || (u_ref u =? 0)) in
  let baseSize := if pass =? 0 then Z.min (lf_tx_w u) (lf_tx_w prev) else Z.min (lf_tx_h u) (lf_tx_h prev) in
  let filterSize := if plane =? 0 then Z.min 16 baseSize else Z.min 8 baseSize in
  let lvl0 := lvl_of u pass in
  let lvl := if lvl0 =? 0 then lvl_of prev pass else lvl0 in
  if onScreen && applyFilter && (0 <? lvl) then
    if pass =? 0 then
      fun r c => if (yP <=? r) && (r <? yP + 4) then
        line plane filterSize bd lvl (fun i => s r (xP + i)) (c - xP) else s r c
    else
      fun r c => if (xP <=? c) && (c <? xP + 4) then
        line plane filterSize bd lvl (fun i => s (yP + i) c) (r - yP) else s r c
  else s.

(* 7.14.1: first all vertical, then all horizontal edges, each in raster order *)
Definition cells (n step : Z) : list Z := map (fun i => Z.of_nat i * step) (seq 0 (Z.to_nat ((n + step - 1) / step))).
Definition pass_filter (MiRows MiCols pass : Z) (s : Z -> Z -> Z) : Z -> Z -> Z :=
  fold_left (fun s row => fold_left (fun s col => edge_filter pass row col s) (cells MiCols (2 ^ sx)) s)
    (cells MiRows (2 ^ sy)) s.
Definition loop_filter (MiRows MiCols : Z) (s : Z -> Z -> Z) : Z -> Z -> Z :=
  if (plane =? 0) || negb (loop_filter_level h (1 + plane) =? 0)
  then pass_filter MiRows MiCols 1 (pass_filter MiRows MiCols 0 s) else s.
End Frame.
