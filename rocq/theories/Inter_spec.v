(** The translational inter prediction of the AV1 specification, written from its text: 7.11.3.2 (rounding
    variables), 7.11.3.3 (motion vector scaling), 7.11.3.4 (block inter prediction), the averaging
    at the end of 7.11.3.1, and the calls made by compute_prediction (5.11.33). *)
From Verif Require Import Base.
Local Open Scope Z_scope.

Definition Round2 (x n : Z) : Z := if n =? 0 then x else Z.shiftr (x + Z.shiftl 1 (n - 1)) n.
Definition Round2Signed (x n : Z) : Z := if x <? 0 then - Round2 (- x) n else Round2 x n.
Definition Clip3 (lo hi x : Z) : Z := if x <? lo then lo else if hi <? x then hi else x.
Definition Clip1 (bd x : Z) : Z := Clip3 0 (2 ^ bd - 1) x.
Definition sum8 (f : Z -> Z) : Z := f 0 + f 1 + f 2 + f 3 + f 4 + f 5 + f 6 + f 7.

(** Subpel_Filters of 7.11.3.4.  Each filter is the mirror image of the one at 16 minus the
    position, so only the positions 0 to 8 are listed. *)
Definition half_filters : list (list (list Z)) :=
  [[[0; 0; 0; 128; 0; 0; 0; 0];
    [0; 2; (-6); 126; 8; (-2); 0; 0];
    [0; 2; (-10); 122; 18; (-4); 0; 0];
    [0; 2; (-12); 116; 28; (-8); 2; 0];
    [0; 2; (-14); 110; 38; (-10); 2; 0];
    [0; 2; (-14); 102; 48; (-12); 2; 0];
    [0; 2; (-16); 94; 58; (-12); 2; 0];
    [0; 2; (-14); 84; 66; (-12); 2; 0];
    [0; 2; (-14); 76; 76; (-14); 2; 0]];
   [[0; 0; 0; 128; 0; 0; 0; 0];
    [0; 2; 28; 62; 34; 2; 0; 0];
    [0; 0; 26; 62; 36; 4; 0; 0];
    [0; 0; 22; 62; 40; 4; 0; 0];
    [0; 0; 20; 60; 42; 6; 0; 0];
    [0; 0; 18; 58; 44; 8; 0; 0];
    [0; 0; 16; 56; 46; 10; 0; 0];
    [0; (-2); 16; 54; 48; 12; 0; 0];
    [0; (-2); 14; 52; 52; 14; (-2); 0]];
   [[0; 0; 0; 128; 0; 0; 0; 0];
    [(-2); 2; (-6); 126; 8; (-2); 2; 0];
    [(-2); 6; (-12); 124; 16; (-6); 4; (-2)];
    [(-2); 8; (-18); 120; 26; (-10); 6; (-2)];
    [(-4); 10; (-22); 116; 38; (-14); 6; (-2)];
    [(-4); 10; (-22); 108; 48; (-18); 8; (-2)];
    [(-4); 10; (-24); 100; 60; (-20); 8; (-2)];
    [(-4); 10; (-24); 90; 70; (-22); 10; (-2)];
    [(-4); 12; (-24); 80; 80; (-24); 12; (-4)]];
   [[0; 0; 0; 128; 0; 0; 0; 0];
    [0; 0; 0; 120; 8; 0; 0; 0];
    [0; 0; 0; 112; 16; 0; 0; 0];
    [0; 0; 0; 104; 24; 0; 0; 0];
    [0; 0; 0; 96; 32; 0; 0; 0];
    [0; 0; 0; 88; 40; 0; 0; 0];
    [0; 0; 0; 80; 48; 0; 0; 0];
    [0; 0; 0; 72; 56; 0; 0; 0];
    [0; 0; 0; 64; 64; 0; 0; 0]];
   [[0; 0; 0; 128; 0; 0; 0; 0];
    [0; 0; (-4); 126; 8; (-2); 0; 0];
    [0; 0; (-8); 122; 18; (-4); 0; 0];
    [0; 0; (-10); 116; 28; (-6); 0; 0];
    [0; 0; (-12); 110; 38; (-8); 0; 0];
    [0; 0; (-12); 102; 48; (-10); 0; 0];
    [0; 0; (-14); 94; 58; (-10); 0; 0];
    [0; 0; (-12); 84; 66; (-10); 0; 0];
    [0; 0; (-12); 76; 76; (-12); 0; 0]];
   [[0; 0; 0; 128; 0; 0; 0; 0];
    [0; 0; 30; 62; 34; 2; 0; 0];
    [0; 0; 26; 62; 36; 4; 0; 0];
    [0; 0; 22; 62; 40; 4; 0; 0];
    [0; 0; 20; 60; 42; 6; 0; 0];
    [0; 0; 18; 58; 44; 8; 0; 0];
    [0; 0; 16; 56; 46; 10; 0; 0];
    [0; 0; 14; 54; 48; 12; 0; 0];
    [0; 0; 12; 52; 52; 12; 0; 0]]].
Definition Subpel_Filters (f p t : Z) : Z :=
  let '(q, u) := if p <=? 8 then (p, t) else (16 - p, 7 - t) in
  nth (Z.to_nat u) (nth (Z.to_nat q) (nth (Z.to_nat f) half_filters []) []) 0.

(** interp_filter: EIGHTTAP 0, EIGHTTAP_SMOOTH 1, EIGHTTAP_SHARP 2, BILINEAR 3; blocks of 4 or less use
    the four tap filters *)
Definition filterIdx (interp size : Z) : Z :=
  if size <=? 4 then if (interp =? 0) || (interp =? 2) then 4 else if interp =? 1 then 5 else interp
  else interp.

Section Rounding.
Variables (bd : Z) (isCompound : bool).
Definition InterRound0 : Z := if bd =? 12 then 5 else 3.
Definition InterRound1 : Z := if isCompound then 7 else if bd =? 12 then 9 else 11.
(* what is left of the gain of two filters of 7 bits each *)
Definition InterPostRound : Z := 14 - InterRound0 - InterRound1.
End Rounding.

(** 7.11.3.3 for a reference of the size of the frame: the scale is 1 << 14, of 10 bits of position
    4 select the filter *)
Definition startPos (pos mv sub : Z) : Z :=
  let halfSample := Z.shiftl 1 3 in
  let orig := Z.shiftl pos 4 + Z.shiftr (2 * mv) sub + halfSample in
  let base := orig * Z.shiftl 1 14 - Z.shiftl halfSample 14 in
  Round2Signed base (14 + 4 - 10) + Z.shiftl 1 6 / 2.
Definition step : Z := Round2Signed (Z.shiftl 1 14) (14 - 10).

(** 7.11.3.4: ref is the reference plane, lastX and lastY its last column and row *)
Section Block.
Variables (bd : Z) (isCompound : bool) (ref : Z -> Z -> Z) (lastX lastY interpY interpX w h startX startY : Z).
Definition intermediate (r c : Z) : Z :=
  let p := startX + step * c in
  Round2 (sum8 (fun t => Subpel_Filters (filterIdx interpX w) (Z.land (Z.shiftr p 6) 15) t *
                  ref (Clip3 0 lastY (Z.shiftr startY 10 + r - 3)) (Clip3 0 lastX (Z.shiftr p 10 + t - 3)))) (InterRound0 bd).
Definition block_pred (r c : Z) : Z :=
  let q := Z.land startY 1023 + step * r in
  Round2 (sum8 (fun t => Subpel_Filters (filterIdx interpY h) (Z.land (Z.shiftr q 6) 15) t *
                  intermediate (Z.shiftr q 10 + t) c)) (InterRound1 bd isCompound).
End Block.

(** one reference, or the average of two; a reference is a plane, its last column and row, and
    the motion vector as (row, column) *)
Definition reference : Type := (Z -> Z -> Z) * (Z * Z).
Section Predict.
Variables (bd subX subY interpY interpX : Z).
Definition pred_from (cmp : bool) (lastX lastY x y w h : Z) (rf : reference) (r c : Z) : Z :=
  block_pred bd cmp (fst rf) lastX lastY interpY interpX w h (startPos x (snd (snd rf)) subX) (startPos y (fst (snd rf)) subY) r c.
Definition predict_inter (lastX lastY x y w h : Z) (r0 : reference) (r1 : option reference) (r c : Z) : Z :=
  match r1 with
  | None => Clip1 bd (pred_from false lastX lastY x y w h r0 r c)
  | Some r1 => Clip1 bd (Round2 (pred_from true lastX lastY x y w h r0 r c + pred_from true lastX lastY x y w h r1 r c) (1 + InterPostRound bd true))
  end.
End Predict.

(** compute_prediction, 5.11.33: the calls of predict_inter for a plane, as position in the plane, size
    and the block whose motion is used.  bw and bh are the size of the block, pw and ph that of its part
    of the plane, Intra whether the block at a position is intra. *)
Record call := mkCall { k_x : Z; k_y : Z; k_w : Z; k_h : Z; k_row : Z; k_col : Z }.
Definition upto (n : Z) : list Z := map Z.of_nat (seq 0 (Z.to_nat n)).
Definition calls (subX subY MiRow MiCol bw bh pw ph : Z) (Intra : Z -> Z -> bool) : list call :=
  let baseX := Z.shiftr MiCol subX * 4 in let baseY := Z.shiftr MiRow subY * 4 in
  let candRow := Z.shiftl (Z.shiftr MiRow subY) subY in let candCol := Z.shiftl (Z.shiftr MiCol subX) subX in
  let someUseIntra := existsb (fun r => existsb (fun c => Intra (candRow + r) (candCol + c)) (upto (Z.shiftl (pw / 4) subX))) (upto (Z.shiftl (ph / 4) subY)) in
  let '(predW, predH, candRow, candCol) := if someUseIntra then (pw, ph, MiRow, MiCol) else (Z.shiftr bw subX, Z.shiftr bh subY, candRow, candCol) in
  flat_map (fun r => map (fun c => mkCall (baseX + c * predW) (baseY + r * predH) predW predH (candRow + r) (candCol + c)) (upto (pw / predW))) (upto (ph / predH)).
