(** The loop restoration process of the AV1 specification (7.17), without superres, one
    sample at a time: the self guided filter (7.17.3) and the Wiener filter (7.17.4). *)
From Verif Require Import Base.
Local Open Scope Z_scope.

Definition Round2 (x n : Z) : Z := if n =? 0 then x else (x + 2 ^ (n - 1)) / 2 ^ n.
Definition Clip3 (lo hi x : Z) : Z := if x <? lo then lo else if hi <? x then hi else x.
(* the sum of f(lo), f(lo + 1), ..., n terms *)
Fixpoint sum (f : Z -> Z) (lo : Z) (n : nat) : Z :=
  match n with O => 0 | S m => sum f lo m + f (lo + Z.of_nat m) end.
Definition at_ (l : list Z) (i : Z) : Z := nth (Z.to_nat i) l 0.

(* r and s of the two passes *)
Definition Sgr_Params : list (list Z) :=
  [ [2; 140; 1; 3236]; [2; 112; 1; 2158]; [2; 93; 1; 1618]; [2; 80; 1; 1438];
    [2; 70; 1; 1295]; [2; 58; 1; 1177]; [2; 47; 1; 1079]; [2; 37; 1; 996];
    [2; 30; 1; 925]; [2; 25; 1; 863]; [0; -1; 1; 2589]; [0; -1; 1; 1618];
    [0; -1; 1; 1177]; [0; -1; 1; 925]; [2; 56; 0; -1]; [2; 22; 0; -1] ].
Definition SGRPROJ_MTABLE_BITS : Z := 20.
Definition SGRPROJ_RECIP_BITS : Z := 12.
Definition SGRPROJ_SGR_BITS : Z := 8.
Definition SGRPROJ_RST_BITS : Z := 4.
Definition SGRPROJ_PRJ_BITS : Z := 7.

(* what a restoration unit says *)
Inductive unit_params :=
| RESTORE_NONE
| RESTORE_WIENER (LrWiener : Z -> Z -> Z)       (* pass, coefficient *)
| RESTORE_SGRPROJ (LrSgrSet : Z) (LrSgrXqd : Z -> Z).

Section Plane.
Variables (BitDepth FrameWidth FrameHeight subX subY : Z)
  (UpscaledCdefFrame UpscaledCurrFrame : Z -> Z -> Z)      (* row, column *)
  (unitSize : Z) (params : Z -> Z -> unit_params).         (* unit row, unit column *)
Definition count_units_in_frame (frameSize : Z) : Z := Z.max ((frameSize + unitSize / 2) / unitSize) 1.
Definition PlaneEndX : Z := Round2 FrameWidth subX - 1.
Definition PlaneEndY : Z := Round2 FrameHeight subY - 1.
Definition MI_SIZE : Z := 4.

(* 7.17: the block of 4x4 luma samples, in row [row] and column [col], that the sample belongs to *)
Definition row_of (y : Z) : Z := (y * 2 ^ subY) / MI_SIZE.
Definition col_of (x : Z) : Z := (x * 2 ^ subX) / MI_SIZE.
Definition StripeNum (row : Z) : Z := (row * MI_SIZE + 8) / 64.
Definition StripeStartY (row : Z) : Z := (-8 + StripeNum row * 64) / 2 ^ subY.
Definition StripeEndY (row : Z) : Z := StripeStartY row + 64 / 2 ^ subY - 1.
Definition unitRow (row : Z) : Z :=
  Z.min (count_units_in_frame (Round2 FrameHeight subY) - 1) ((row * MI_SIZE + 8) / 2 ^ subY / unitSize).
Definition unitCol (col : Z) : Z :=
  Z.min (count_units_in_frame (Round2 FrameWidth subX) - 1) ((col * MI_SIZE) / 2 ^ subX / unitSize).

(* 7.17.6, for the block in row [row] *)
Definition get_source_sample (row y x : Z) : Z :=
  let x := Z.min PlaneEndX x in
  let x := Z.max 0 x in
  let y := Z.max 0 y in
  let y := Z.min PlaneEndY y in
  if y <? StripeStartY row then UpscaledCurrFrame (Z.max (StripeStartY row - 2) y) x
  else if StripeEndY row <? y then UpscaledCurrFrame (Z.min (StripeEndY row + 2) y) x
  else UpscaledCdefFrame y x.

(** ** 7.17.3: the self guided filter.  [y], [x]: a place in the plane *)
Section Box.
Variables (row set pass : Z).
Definition r : Z := at_ (nth (Z.to_nat set) Sgr_Params []) (pass * 2).
Definition s : Z := at_ (nth (Z.to_nat set) Sgr_Params []) (pass * 2 + 1).
Definition n : Z := (2 * r + 1) * (2 * r + 1).
Definition oneByN : Z := (2 ^ SGRPROJ_RECIP_BITS + n / 2) / n.
Definition window (f : Z -> Z) (y x : Z) : Z :=
  sum (fun dy => sum (fun dx => f (get_source_sample row (y + dy) (x + dx))) (- r) (Z.to_nat (2 * r + 1)))
      (- r) (Z.to_nat (2 * r + 1)).
(* a2 and the rounded b2 from the sum of squares and the sum *)
Definition box_a2 (a b : Z) : Z :=
  let a := Round2 a (2 * (BitDepth - 8)) in
  let d := Round2 b (BitDepth - 8) in
  let p := Z.max 0 (a * n - d * d) in
  let z := Round2 (p * s) SGRPROJ_MTABLE_BITS in
  if 255 <=? z then 256 else if z =? 0 then 1 else (z * 2 ^ SGRPROJ_SGR_BITS + z / 2) / (z + 1).
Definition box_b2 (a b : Z) : Z :=
  Round2 ((2 ^ SGRPROJ_SGR_BITS - box_a2 a b) * b * oneByN) SGRPROJ_RECIP_BITS.
Definition A (y x : Z) : Z := box_a2 (window (fun c => c * c) y x) (window (fun c => c) y x).
Definition B (y x : Z) : Z := box_b2 (window (fun c => c * c) y x) (window (fun c => c) y x).
(* [i]: row within the block *)
Definition weight (i dy dx : Z) : Z :=
  if pass =? 0 then (if (i + dy) mod 2 =? 1 then (if dx =? 0 then 6 else 5) else 0)
  else (if (dx =? 0) || (dy =? 0) then 4 else 3).
Definition flt (i y x : Z) : Z :=
  let shift := if (pass =? 0) && (i mod 2 =? 1) then 4 else 5 in
  let tot f := sum (fun dy => sum (fun dx => weight i dy dx * f (y + dy) (x + dx)) (-1) 3) (-1) 3 in
  let v := tot A * UpscaledCdefFrame y x + tot B in
  Round2 v (SGRPROJ_SGR_BITS + shift - SGRPROJ_RST_BITS).
End Box.

Definition self_guided (row set : Z) (xqd : Z -> Z) (y x : Z) : Z :=
  let w0 := xqd 0 in
  let w1 := xqd 1 in
  let w2 := 2 ^ SGRPROJ_PRJ_BITS - w0 - w1 in
  let r0 := r set 0 in
  let r1 := r set 1 in
  let i := y - (row * MI_SIZE) / 2 ^ subY in
  let u := UpscaledCdefFrame y x * 2 ^ SGRPROJ_RST_BITS in
  let v := w1 * u in
  let v := v + w0 * (if negb (r0 =? 0) then flt row set 0 i y x else u) in
  let v := v + w2 * (if negb (r1 =? 0) then flt row set 1 i y x else u) in
  Clip3 0 (2 ^ BitDepth - 1) (Round2 v (SGRPROJ_RST_BITS + SGRPROJ_PRJ_BITS)).

(** ** 7.17.4: the Wiener filter (rounding variables of 7.11.3.2 with isCompound = 0) *)
Definition InterRound0 : Z := if BitDepth =? 12 then 5 else 3.
Definition InterRound1 : Z := if BitDepth =? 12 then 9 else 11.
(* 7.17.5 *)
Definition get_filter (coeff : Z -> Z) (t : Z) : Z :=
  if t =? 3 then 128 - 2 * (coeff 0 + coeff 1 + coeff 2) else if t <? 3 then coeff t else coeff (6 - t).
Definition wiener (row : Z) (LrWiener : Z -> Z -> Z) (y x : Z) : Z :=
  let vfilter := get_filter (LrWiener 0) in
  let hfilter := get_filter (LrWiener 1) in
  let offset := 2 ^ (BitDepth + 7 - InterRound0 - 1) in
  let limit := 2 ^ (BitDepth + 1 + 7 - InterRound0) - 1 in
  let intermediate y := Clip3 (- offset) (limit - offset)
      (Round2 (sum (fun t => hfilter t * get_source_sample row y (x + t - 3)) 0 7) InterRound0) in
  Clip3 0 (2 ^ BitDepth - 1) (Round2 (sum (fun t => vfilter t * intermediate (y + t - 3)) 0 7) InterRound1).

(** ** 7.17: the restored plane *)
Definition LrFrame (y x : Z) : Z :=
  let row := row_of y in
  match params (unitRow row) (unitCol (col_of x)) with
  | RESTORE_NONE => UpscaledCdefFrame y x
  | RESTORE_WIENER c => wiener row c y x
  | RESTORE_SGRPROJ set xqd => self_guided row set xqd y x
  end.
End Plane.
