(** Inter prediction: src/mc.rs (module rust), and get_mv_params, predict_inter of src/predict.rs, and the
    choice of blocks in motion_compensate of src/encoder.rs.

    The reference plane is what v_frame's Plane::pad leaves: samples at the origin and around them
    copies of the nearest one, up to the margins.  A read outside the allocation is [None].
    Output blocks are functions of row and column. *)
From Verif Require Import Base.
Local Open Scope Z_scope.

Definition obind {A B} (x : option A) (f : A -> option B) : option B := match x with Some a => f a | None => None end.
Definition i16 (v : Z) : Z := let m := v mod 65536 in if m <? 32768 then m else m - 65536.
(* src/util/math.rs round_shift *)
Definition round_shift (v bit : Z) : Z := Z.shiftr (v + Z.shiftr (Z.shiftl 1 bit) 1) bit.
Definition clamp (v lo hi : Z) : Z := if v <? lo then lo else if hi <? v then hi else v.
(* T::cast_from, T of tb bits *)
Definition cast (tb v : Z) : Z := v mod 2 ^ tb.

(* 100-106, as numbers *)
Definition REGULAR := 0.
Definition SMOOTH := 1.
Definition SHARP := 2.
Definition BILINEAR := 3.

(* 110-219 *)
Definition SUBPEL_FILTERS : list (list (list Z)) :=
  [[[0; 0; 0; 128; 0; 0; 0; 0];
    [0; 2; (-6); 126; 8; (-2); 0; 0];
    [0; 2; (-10); 122; 18; (-4); 0; 0];
    [0; 2; (-12); 116; 28; (-8); 2; 0];
    [0; 2; (-14); 110; 38; (-10); 2; 0];
    [0; 2; (-14); 102; 48; (-12); 2; 0];
    [0; 2; (-16); 94; 58; (-12); 2; 0];
    [0; 2; (-14); 84; 66; (-12); 2; 0];
    [0; 2; (-14); 76; 76; (-14); 2; 0];
    [0; 2; (-12); 66; 84; (-14); 2; 0];
    [0; 2; (-12); 58; 94; (-16); 2; 0];
    [0; 2; (-12); 48; 102; (-14); 2; 0];
    [0; 2; (-10); 38; 110; (-14); 2; 0];
    [0; 2; (-8); 28; 116; (-12); 2; 0];
    [0; 0; (-4); 18; 122; (-10); 2; 0];
    [0; 0; (-2); 8; 126; (-6); 2; 0]];
   [[0; 0; 0; 128; 0; 0; 0; 0];
    [0; 2; 28; 62; 34; 2; 0; 0];
    [0; 0; 26; 62; 36; 4; 0; 0];
    [0; 0; 22; 62; 40; 4; 0; 0];
    [0; 0; 20; 60; 42; 6; 0; 0];
    [0; 0; 18; 58; 44; 8; 0; 0];
    [0; 0; 16; 56; 46; 10; 0; 0];
    [0; (-2); 16; 54; 48; 12; 0; 0];
    [0; (-2); 14; 52; 52; 14; (-2); 0];
    [0; 0; 12; 48; 54; 16; (-2); 0];
    [0; 0; 10; 46; 56; 16; 0; 0];
    [0; 0; 8; 44; 58; 18; 0; 0];
    [0; 0; 6; 42; 60; 20; 0; 0];
    [0; 0; 4; 40; 62; 22; 0; 0];
    [0; 0; 4; 36; 62; 26; 0; 0];
    [0; 0; 2; 34; 62; 28; 2; 0]];
   [[0; 0; 0; 128; 0; 0; 0; 0];
    [(-2); 2; (-6); 126; 8; (-2); 2; 0];
    [(-2); 6; (-12); 124; 16; (-6); 4; (-2)];
    [(-2); 8; (-18); 120; 26; (-10); 6; (-2)];
    [(-4); 10; (-22); 116; 38; (-14); 6; (-2)];
    [(-4); 10; (-22); 108; 48; (-18); 8; (-2)];
    [(-4); 10; (-24); 100; 60; (-20); 8; (-2)];
    [(-4); 10; (-24); 90; 70; (-22); 10; (-2)];
    [(-4); 12; (-24); 80; 80; (-24); 12; (-4)];
    [(-2); 10; (-22); 70; 90; (-24); 10; (-4)];
    [(-2); 8; (-20); 60; 100; (-24); 10; (-4)];
    [(-2); 8; (-18); 48; 108; (-22); 10; (-4)];
    [(-2); 6; (-14); 38; 116; (-22); 10; (-4)];
    [(-2); 6; (-10); 26; 120; (-18); 8; (-2)];
    [(-2); 4; (-6); 16; 124; (-12); 6; (-2)];
    [0; 2; (-2); 8; 126; (-6); 2; (-2)]];
   [[0; 0; 0; 128; 0; 0; 0; 0];
    [0; 0; 0; 120; 8; 0; 0; 0];
    [0; 0; 0; 112; 16; 0; 0; 0];
    [0; 0; 0; 104; 24; 0; 0; 0];
    [0; 0; 0; 96; 32; 0; 0; 0];
    [0; 0; 0; 88; 40; 0; 0; 0];
    [0; 0; 0; 80; 48; 0; 0; 0];
    [0; 0; 0; 72; 56; 0; 0; 0];
    [0; 0; 0; 64; 64; 0; 0; 0];
    [0; 0; 0; 56; 72; 0; 0; 0];
    [0; 0; 0; 48; 80; 0; 0; 0];
    [0; 0; 0; 40; 88; 0; 0; 0];
    [0; 0; 0; 32; 96; 0; 0; 0];
    [0; 0; 0; 24; 104; 0; 0; 0];
    [0; 0; 0; 16; 112; 0; 0; 0];
    [0; 0; 0; 8; 120; 0; 0; 0]];
   [[0; 0; 0; 128; 0; 0; 0; 0];
    [0; 0; (-4); 126; 8; (-2); 0; 0];
    [0; 0; (-8); 122; 18; (-4); 0; 0];
    [0; 0; (-10); 116; 28; (-6); 0; 0];
    [0; 0; (-12); 110; 38; (-8); 0; 0];
    [0; 0; (-12); 102; 48; (-10); 0; 0];
    [0; 0; (-14); 94; 58; (-10); 0; 0];
    [0; 0; (-12); 84; 66; (-10); 0; 0];
    [0; 0; (-12); 76; 76; (-12); 0; 0];
    [0; 0; (-10); 66; 84; (-12); 0; 0];
    [0; 0; (-10); 58; 94; (-14); 0; 0];
    [0; 0; (-10); 48; 102; (-12); 0; 0];
    [0; 0; (-8); 38; 110; (-12); 0; 0];
    [0; 0; (-6); 28; 116; (-10); 0; 0];
    [0; 0; (-4); 18; 122; (-8); 0; 0];
    [0; 0; (-2); 8; 126; (-4); 0; 0]];
   [[0; 0; 0; 128; 0; 0; 0; 0];
    [0; 0; 30; 62; 34; 2; 0; 0];
    [0; 0; 26; 62; 36; 4; 0; 0];
    [0; 0; 22; 62; 40; 4; 0; 0];
    [0; 0; 20; 60; 42; 6; 0; 0];
    [0; 0; 18; 58; 44; 8; 0; 0];
    [0; 0; 16; 56; 46; 10; 0; 0];
    [0; 0; 14; 54; 48; 12; 0; 0];
    [0; 0; 12; 52; 52; 12; 0; 0];
    [0; 0; 12; 48; 54; 14; 0; 0];
    [0; 0; 10; 46; 56; 16; 0; 0];
    [0; 0; 8; 44; 58; 18; 0; 0];
    [0; 0; 6; 42; 60; 20; 0; 0];
    [0; 0; 4; 40; 62; 22; 0; 0];
    [0; 0; 4; 36; 62; 26; 0; 0];
    [0; 0; 2; 34; 62; 30; 0; 0]]].

(* 225-236: eight taps over [src], which may fail *)
Definition run_filter (src : Z -> option Z) (filter : list Z) : option Z :=
  fold_left (fun acc i => obind acc (fun a => obind (src (Z.of_nat i)) (fun p => Some (a + nth i filter 0 * p)))) (seq 0 8) (Some 0).
(* 238-247 *)
Definition get_filter (mode frac length : Z) : list Z :=
  let filter_idx := if (mode =? BILINEAR) || (4 <? length) then mode else Z.min mode 1 + 4 in
  nth (Z.to_nat frac) (nth (Z.to_nat filter_idx) SUBPEL_FILTERS []) [].

(** ** The reference plane (v_frame) *)
Record plane := mkPlane {
  pl_at : Z -> Z -> Z;          (* the samples, rows and columns from 0 *)
  pl_w : Z; pl_h : Z;           (* the size given to pad: the frame's, in samples of this plane *)
  pl_cw : Z; pl_ch : Z;         (* cfg.width, cfg.height *)
  pl_xo : Z; pl_yo : Z;         (* cfg.xorigin, cfg.yorigin *)
  pl_right : Z; pl_below : Z    (* stride - xorigin, alloc_height - yorigin *)
}.
Definition nearest (n v : Z) : Z := Z.max 0 (Z.min (n - 1) v).
Definition padded (P : plane) (y x : Z) : option Z :=
  if (- pl_yo P <=? y) && (y <? pl_below P) && (- pl_xo P <=? x) && (x <? pl_right P)
  then Some (pl_at P (nearest (pl_h P) y) (nearest (pl_w P) x)) else None.

(** ** put_8tap, 249-352; sx and sy the position of the slice *)
Section Filters.
Variables (P : plane) (sx sy width height col_frac row_frac mode_x mode_y bit_depth tb : Z).
Definition size_ok : bool := (Z.land height 1 =? 0) && existsb (Z.eqb width) [2; 4; 8; 16; 32; 64; 128].
Let y_filter := get_filter mode_y row_frac height.
Let x_filter := get_filter mode_x col_frac width.
Definition intermediate_bits : Z := 4 - (if bit_depth =? 12 then 2 else 0).
Definition max_sample_val : Z := Z.shiftl 1 bit_depth - 1.
(* 313-330: row r of the rows from sy - 3 *)
Definition inter_row (r c : Z) : option Z :=
  obind (run_filter (fun i => padded P (sy - 3 + r) (sx - 3 + c + i)) x_filter) (fun v => Some (i16 (round_shift v (7 - intermediate_bits)))).
Definition put_8tap (r c : Z) : option Z :=
  if size_ok then
    if (col_frac =? 0) && (row_frac =? 0) then padded P (sy + r) (sx + c)
    else if col_frac =? 0 then
      obind (run_filter (fun i => padded P (sy - 3 + r + i) (sx + c)) y_filter) (fun v => Some (cast tb (clamp (round_shift v 7) 0 max_sample_val)))
    else if row_frac =? 0 then
      obind (run_filter (fun i => padded P (sy + r) (sx - 3 + c + i)) x_filter)
        (fun v => Some (cast tb (clamp (round_shift (round_shift v (7 - intermediate_bits)) intermediate_bits) 0 max_sample_val)))
    else
      obind (run_filter (fun i => inter_row (r + i) c) y_filter) (fun v => Some (cast tb (clamp (round_shift v (7 + intermediate_bits)) 0 max_sample_val)))
  else None.
(** prep_8tap, 355-451 *)
Definition PREP_BIAS : Z := 8192.
Definition prep_bias : Z := if bit_depth =? 8 then 0 else PREP_BIAS.
Definition prep_8tap (r c : Z) : option Z :=
  if size_ok then
    if (col_frac =? 0) && (row_frac =? 0) then obind (padded P (sy + r) (sx + c)) (fun v => Some (i16 (i16 (Z.shiftl (i16 v) intermediate_bits) - i16 prep_bias)))
    else if col_frac =? 0 then
      obind (run_filter (fun i => padded P (sy - 3 + r + i) (sx + c)) y_filter) (fun v => Some (i16 (round_shift v (7 - intermediate_bits) - prep_bias)))
    else if row_frac =? 0 then
      obind (run_filter (fun i => padded P (sy + r) (sx - 3 + c + i)) x_filter) (fun v => Some (i16 (round_shift v (7 - intermediate_bits) - prep_bias)))
    else
      obind (run_filter (fun i => inter_row (r + i) c) y_filter) (fun v => Some (i16 (round_shift v 7 - prep_bias)))
  else None.
End Filters.
(** mc_avg, 453-482 *)
Definition mc_avg (tmp1 tmp2 bit_depth tb : Z) : Z :=
  let prep_bias := if bit_depth =? 8 then 0 else PREP_BIAS * 2 in
  cast tb (clamp (round_shift (tmp1 + tmp2 + prep_bias) (intermediate_bits bit_depth + 1)) 0 (max_sample_val bit_depth)).

(** ** get_mv_params, src/predict.rs 281-297: the fractions and the position of the slice *)
Definition get_mv_params (P : plane) (xdec ydec po_x po_y mv_row mv_col : Z) : Z * Z * (Z * Z) :=
  let row_offset := Z.shiftr mv_row (3 + ydec) in
  let col_offset := Z.shiftr mv_col (3 + xdec) in
  let row_frac := Z.land (Z.shiftl mv_row (1 - ydec)) 15 in
  let col_frac := Z.land (Z.shiftl mv_col (1 - xdec)) 15 in
  (* slice(qo).clamp() of v_frame *)
  let qx := Z.max (Z.min (po_x + col_offset - 3) (pl_cw P)) (- pl_xo P) in
  let qy := Z.max (Z.min (po_y + row_offset - 3) (pl_ch P)) (- pl_yo P) in
  (row_frac, col_frac, (qx + 3, qy + 3)).
(** predict_inter_single, predict_inter_compound and predict_inter, 299-424 *)
Section Predict.
Variables (bit_depth tb xdec ydec mode : Z).
Definition mvref : Type := plane * (Z * Z).
Definition single (po_x po_y width height : Z) (rf : mvref) (r c : Z) : option Z :=
  let '(row_frac, col_frac, (sx, sy)) := get_mv_params (fst rf) xdec ydec po_x po_y (fst (snd rf)) (snd (snd rf)) in
  put_8tap (fst rf) sx sy width height col_frac row_frac mode mode bit_depth tb r c.
Definition prepared (po_x po_y width height : Z) (rf : mvref) (r c : Z) : option Z :=
  let '(row_frac, col_frac, (sx, sy)) := get_mv_params (fst rf) xdec ydec po_x po_y (fst (snd rf)) (snd (snd rf)) in
  prep_8tap (fst rf) sx sy width height col_frac row_frac mode mode bit_depth r c.
Definition predict_inter (po_x po_y width height : Z) (r0 : mvref) (r1 : option mvref) (r c : Z) : option Z :=
  match r1 with
  | None => single po_x po_y width height r0 r c
  | Some r1 =>
      obind (prepared po_x po_y width height r0 r c) (fun a => obind (prepared po_x po_y width height r1 r c) (fun b =>
        Some (mc_avg a b bit_depth tb)))
  end.
End Predict.

(** ** motion_compensate, src/encoder.rs 1693-1878: the predictions of a plane, as position in the plane, size,
    and the offset (columns, rows) of the block whose motion is used.  intra dx dy: the block at
    that offset is intra.  bw, bh the size of the block; [None] where the code panics. *)
Section Calls.
Variables (p xdec ydec bo_x bo_y bw bh pw ph : Z) (intra : Z -> Z -> bool).
Let po_x := Z.shiftr bo_x xdec * 4.
Let po_y := Z.shiftr bo_y ydec * 4.
Definition is_4x4 : bool := (bw =? 4) && (bh =? 4).
Definition is_4x8 : bool := (bw =? 4) && (bh =? 8).
Definition is_8x4 : bool := (bw =? 8) && (bh =? 4).
Definition one (x y w h dx dy : Z) : Z * Z * (Z * Z) * (Z * Z) := (x, y, (w, h), (dx, dy)).
Definition compensate : option (list (Z * Z * (Z * Z) * (Z * Z))) :=
  if (0 <? p) && (is_4x4 || is_4x8 || is_8x4) then
    let some_use_intra := if is_4x4 || is_4x8 then intra (-1) 0 else false in
    let some_use_intra := if (negb some_use_intra && is_4x4) || is_8x4 then some_use_intra || intra 0 (-1) else some_use_intra in
    let some_use_intra := if negb some_use_intra && is_4x4 then some_use_intra || intra (-1) (-1) else some_use_intra in
    if some_use_intra then Some [one po_x po_y pw ph 0 0]
    else if (xdec =? 1) && (ydec =? 1) then
      Some ((if is_4x4 then [one po_x po_y 2 2 (-1) (-1); one (po_x + 2) po_y 2 2 0 (-1); one po_x (po_y + 2) 2 2 (-1) 0; one (po_x + 2) (po_y + 2) 2 2 0 0] else []) ++
            (if is_8x4 then [one po_x po_y 4 2 0 (-1); one po_x (po_y + 2) 4 2 0 0] else []) ++
            (if is_4x8 then [one po_x po_y 2 4 (-1) 0; one (po_x + 2) po_y 2 4 0 0] else []))
    else None
  else Some [one po_x po_y pw ph 0 0].
End Calls.
