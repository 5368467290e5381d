(** Model of loop restoration filtering: /repo/src/lrf.rs, the portable code (not the
    assembly).  Planes are functions of row and column that may be read at any place:
    the padding of the planes is assumed to be large enough (`row_range`, `row`).
    Integers are u32 where the code uses u32; i32 arithmetic is exact (bounds are proved). *)
From Verif Require Import Base.
Local Open Scope Z_scope.

Definition bind {A B} (o : option A) (f : A -> option B) : option B := match o with Some a => f a | None => None end.
Notation "'do' x <- o ; k" := (bind o (fun x => k)) (at level 200, x name, o at level 100, k at level 200).
(* for i in lo..lo+n *)
Fixpoint loop {A} (f : Z -> A -> A) (lo : Z) (n : nat) (s : A) : A :=
  match n with O => s | S m => f (lo + Z.of_nat m) (loop f lo m s) end.
Definition for_ {A} (lo hi : Z) (f : Z -> A -> A) (s : A) : A := loop f lo (Z.to_nat (hi - lo)) s.
Definition ofor {A} (lo hi : Z) (f : Z -> A -> option A) (s : A) : option A :=
  for_ lo hi (fun i o => do s <- o; f i s) (Some s).
Definition clamp (x lo hi : Z) : Z := if x <? lo then lo else if hi <? x then hi else x.
Definition idx (l : list Z) (i : Z) : Z := nth (Z.to_nat i) l 0.
(* memory and its update *)
Definition set1 (m : Z -> Z) (a v : Z) : Z -> Z := fun a' => if a' =? a then v else m a'.

(* lrf.rs 50-73 *)
Definition SGRPROJ_MTABLE_BITS : Z := 20.
Definition SGRPROJ_SGR_BITS : Z := 8.
Definition SGRPROJ_RECIP_BITS : Z := 12.
Definition SGRPROJ_RST_BITS : Z := 4.
Definition SGRPROJ_PRJ_BITS : Z := 7.
Definition SGRPROJ_PARAMS_S : list (list Z) :=
  [ [140; 3236]; [112; 2158]; [93; 1618]; [80; 1438]; [70; 1295]; [58; 1177]; [47; 1079]; [37; 996];
    [30; 925]; [25; 863]; [0; 2589]; [0; 1618]; [0; 1177]; [0; 925]; [56; 0]; [22; 0] ].
Definition params_s (set i : Z) : Z := idx (nth (Z.to_nat set) SGRPROJ_PARAMS_S []) i.
(* lrf.rs 95-109 *)
Definition STRIPE_IMAGE_MAX : Z := 256 + 128.
Definition STRIPE_IMAGE_STRIDE : Z := STRIPE_IMAGE_MAX + 6 + 2.
Definition STRIPE_IMAGE_HEIGHT : Z := 64 + 6 + 2.
Definition STRIPE_IMAGE_SIZE : Z := STRIPE_IMAGE_STRIDE * STRIPE_IMAGE_HEIGHT.
Definition IMAGE_WIDTH_MAX : Z := STRIPE_IMAGE_MAX.

(** lrf.rs 331-352: sgrproj_sum_finish *)
Definition sgrproj_sum_finish (bd ssq sum n one_over_n s : Z) : Z * Z :=
  let bdm8 := bd - 8 in
  let scaled_ssq := Z.shiftr (u32 (ssq + Z.shiftr (Z.shiftl 1 (2 * bdm8)) 1)) (2 * bdm8) in
  let scaled_sum := Z.shiftr (u32 (sum + Z.shiftr (Z.shiftl 1 bdm8) 1)) bdm8 in
  let p := Z.max 0 (u32 (scaled_ssq * n) - u32 (scaled_sum * scaled_sum)) in
  let z := Z.shiftr (u32 (u32 (p * s) + Z.shiftr (Z.shiftl 1 SGRPROJ_MTABLE_BITS) 1)) SGRPROJ_MTABLE_BITS in
  let a := if 255 <=? z then 256 else if z =? 0 then 1
           else u32 (Z.shiftl z SGRPROJ_SGR_BITS + z / 2) / (z + 1) in
  let b := u32 (u32 (u32 (Z.shiftl 1 SGRPROJ_SGR_BITS - a) * sum) * one_over_n) in
  (a, Z.shiftr (u32 (b + Z.shiftr (Z.shiftl 1 SGRPROJ_RECIP_BITS) 1)) SGRPROJ_RECIP_BITS).

(** lrf.rs 357-371: get_integral_square on the slice that starts at [off] *)
Definition get_integral_square (iimg : Z -> Z) (off stride x y size : Z) : Z :=
  let top_left := iimg (off + (y * stride + x)) in
  let top_right := iimg (off + (y * stride + x + size)) in
  let bottom_left := iimg (off + ((y + size) * stride + x)) in
  let bottom_right := iimg (off + ((y + size) * stride + x + size)) in
  u32 (u32 (u32 (top_left + bottom_right) - bottom_left) - top_right).

(** lrf.rs 410-470: row [k] of VertPaddedIter, as a function of the index within the row;
    [x0], [y0] are the offset of the slices *)
Definition vert_padded (cdeffed deblocked : Z -> Z -> Z) (x0 y0 stripe_h crop k i : Z) : Z :=
  let crop := crop + y0 in
  let stripe_end := stripe_h + y0 in
  let y := y0 - 4 + k in
  let cropped_y := clamp y 0 (crop - 1) in
  let ly := clamp cropped_y (y0 - 2) (stripe_end + 1) in
  if (y0 <=? ly) && (ly <? stripe_end) then cdeffed ly (x0 + i) else deblocked ly (x0 + i).

(** lrf.rs 477-535, 541-575: the value in row [k] and column [c] of the padded source *)
Definition source (cdeffed deblocked : Z -> Z -> Z) (x0 y0 crop_w crop_h stripe_w stripe_h k c : Z) : Z :=
  let left_w := 4 in
  let right_w := 3 in
  let left_uniques := if x0 =? 0 then 0 else left_w in
  let right_uniques := Z.min right_w (crop_w - stripe_w) in
  let row_uniques := left_uniques + stripe_w + right_uniques in
  let start_index_x := if x0 =? 0 then - left_w else 0 in
  vert_padded cdeffed deblocked (x0 - left_uniques) y0 (stripe_h + Z.land stripe_h 1) crop_h k
    (clamp (start_index_x + c) 0 (row_uniques - 1)).

(* lrf.rs 577-636: one row; [first] for the row that has no row above *)
Definition integral_row (src : Z -> Z) (stride row n : Z) (m : (Z -> Z) * (Z -> Z)) : (Z -> Z) * (Z -> Z) :=
  let st := for_ 0 n (fun c st =>
    let '(ii, sq, sum, sq_sum) := st in
    let current := src c in
    let sum := u32 (sum + current) in
    let above (m : Z -> Z) := if row =? 0 then 0 else m ((row - 1) * stride + c) in
    let ii := set1 ii (row * stride + c) (u32 (sum + above ii)) in
    let sq_sum := u32 (sq_sum + u32 (current * current)) in
    let sq := set1 sq (row * stride + c) (u32 (sq_sum + above sq)) in
    (ii, sq, sum, sq_sum)) (fst m, snd m, 0, 0) in
  let '(ii, sq, _, _) := st in (ii, sq).

(** lrf.rs 540-637: setup_integral_image for buffers of [size] elements.  A row of fewer
    than n elements ends its loop early; `split_at_mut` past the end panics. *)
Definition setup_integral_image (size stride crop_w crop_h stripe_w stripe_h : Z)
  (cdeffed deblocked : Z -> Z -> Z) (x0 y0 : Z) (m : (Z -> Z) * (Z -> Z)) : option ((Z -> Z) * (Z -> Z)) :=
  let n := 4 + stripe_w + 3 in
  let rows := 4 + (stripe_h + Z.land stripe_h 1) + 2 in
  if (stripe_w <=? crop_w) && ((rows - 1) * stride <=? size) then
    Some (for_ 0 rows (fun k => integral_row (source cdeffed deblocked x0 y0 crop_w crop_h stripe_w stripe_h k)
      stride k (Z.min n (if k =? 0 then size else Z.min stride (size - k * stride)))) m)
  else None.

(** lrf.rs 169-198: sgrproj_box_ab_internal; [off] is the start of the slices of the
    integral images, which have [size] elements altogether; [af] and [bf] have IMAGE_WIDTH_MAX + 2 *)
Definition box_ab (bd rad size off : Z) (m : (Z -> Z) * (Z -> Z)) (stride y stripe_w s : Z)
  (ab : (Z -> Z) * (Z -> Z)) : option ((Z -> Z) * (Z -> Z)) :=
  let d := rad * 2 + 1 in
  let n := d * d in
  let one_over_n := if rad =? 1 then 455 else 164 in
  if ((y + d) * stride + stripe_w + 1 + d <? size - off) && (stripe_w + 1 <? IMAGE_WIDTH_MAX + 2) then
    let at_x x := sgrproj_sum_finish bd (get_integral_square (snd m) off stride x y d)
                    (get_integral_square (fst m) off stride x y d) n one_over_n s in
    Some (fun x => if (0 <=? x) && (x <? stripe_w + 2) then fst (at_x x) else fst ab x,
          fun x => if (0 <=? x) && (x <? stripe_w + 2) then snd (at_x x) else snd ab x)
  else None.

(** lrf.rs 243-258, 268-298, 306-346: the three kernels, at one position; positions from
    0 to w are written independently *)
Definition f_r0 (line : Z -> Z) (x : Z) : Z := Z.shiftl (line x) SGRPROJ_RST_BITS.
Definition row3 (f : Z -> Z -> Z) (x : Z) : Z :=
  u32 (3 * (f 0 x + f 2 x + f 0 (x + 2) + f 2 (x + 2)) + 4 * (f 1 x + f 0 (x + 1) + f 1 (x + 1) + f 2 (x + 1) + f 1 (x + 2))).
Definition f_r1 (af bf : Z -> Z -> Z) (line : Z -> Z) (x : Z) : Z :=
  let shift := 5 + SGRPROJ_SGR_BITS - SGRPROJ_RST_BITS in
  let v := u32 (u32 (row3 af x * line x) + row3 bf x) in
  Z.shiftr (u32 (v + Z.shiftr (Z.shiftl 1 shift) 1)) shift.
Definition row2 (f : Z -> Z) (x : Z) : Z := u32 (5 * (f x + f (x + 2)) + 6 * f (x + 1)).
Definition f_r2 (af bf : Z -> Z -> Z) (line line1 : Z -> Z) (x : Z) : Z * Z :=
  let shift := 5 + SGRPROJ_SGR_BITS - SGRPROJ_RST_BITS in
  let shifto := 4 + SGRPROJ_SGR_BITS - SGRPROJ_RST_BITS in
  let a := row2 (af 0) x in
  let b := row2 (bf 0) x in
  let ao := row2 (af 1) x in
  let bo := row2 (bf 1) x in
  let v := u32 (u32 (u32 (u32 (a + ao) * line x) + b) + bo) in
  let vo := u32 (u32 (ao * line1 x) + bo) in
  (Z.shiftr (u32 (v + Z.shiftr (Z.shiftl 1 shift) 1)) shift,
   Z.shiftr (u32 (vo + Z.shiftr (Z.shiftl 1 shifto) 1)) shifto).

(* lrf.rs 778-801: apply_filter, at one position *)
Definition apply_filter (bd w0 w1 w2 px f2 f1 : Z) : Z :=
  let u := Z.shiftl px SGRPROJ_RST_BITS in
  let v := w0 * f2 + w1 * u + w2 * f1 in
  let s := Z.shiftr (v + Z.shiftr (Z.shiftl 1 (SGRPROJ_RST_BITS + SGRPROJ_PRJ_BITS)) 1) (SGRPROJ_RST_BITS + SGRPROJ_PRJ_BITS) in
  clamp s 0 (Z.shiftl 1 bd - 1).

(* the ring buffers of intermediate rows: slot, column *)
Record rings := { a2 : Z -> Z -> Z; b2 : Z -> Z -> Z; a1 : Z -> Z -> Z; b1 : Z -> Z -> Z }.
Definition put_slot (m : Z -> Z -> Z) (k : Z) (f : Z -> Z) : Z -> Z -> Z := fun k' => if k' =? k then f else m k'.
Definition ab_r2 bd size m stride y w s slot (g : rings) : option rings :=
  do ab <- box_ab bd 2 size 0 m stride y w s (a2 g slot, b2 g slot);
  Some {| a2 := put_slot (a2 g) slot (fst ab); b2 := put_slot (b2 g) slot (snd ab); a1 := a1 g; b1 := b1 g |}.
Definition ab_r1 bd size m stride y w s slot (g : rings) : option rings :=
  do ab <- box_ab bd 1 size (stride + 1) m stride y w s (a1 g slot, b1 g slot);
  Some {| a1 := put_slot (a1 g) slot (fst ab); b1 := put_slot (b1 g) slot (snd ab); a2 := a2 g; b2 := b2 g |}.
(* a row of the output *)
Definition put_row (out : Z -> Z -> Z) (y x0 w : Z) (f : Z -> Z) : Z -> Z -> Z :=
  fun y' x' => if (y' =? y) && (x0 <=? x') && (x' <? x0 + w) then f (x' - x0) else out y' x'.

(* lrf.rs 722-819: the row y + dy; [f2] is f_r2_ab[dy] *)
Definition stripe_row (bd set xqd0 xqd1 size : Z) (m : (Z -> Z) * (Z -> Z)) (stride : Z) (cdeffed : Z -> Z -> Z)
  (x0 y0 w : Z) (f2 : Z -> Z) (y : Z) (st : rings * (Z -> Z -> Z)) : option (rings * (Z -> Z -> Z)) :=
  let '(g, out) := st in
  let s_r1 := params_s set 1 in
  let line x := cdeffed (y0 + y) (x0 + x) in
  do gf <- (if 0 <? s_r1 then
      do g <- ab_r1 bd size m stride (y + 2) w s_r1 ((y + 2) mod 3) g;
      Some (g, f_r1 (fun k => a1 g ((y + k) mod 3)) (fun k => b1 g ((y + k) mod 3)) line)
    else Some (g, f_r0 line));
  let '(g, f1) := gf in
  let w0 := xqd0 in
  let w1 := xqd1 in
  let w2 := Z.shiftl 1 SGRPROJ_PRJ_BITS - w0 - w1 in
  Some (g, put_row out (y0 + y) x0 w (fun x => apply_filter bd w0 w1 w2 (line x) (f2 x) (f1 x))).

(* lrf.rs 690-821: the rows y and y + 1 *)
Definition stripe_pair (bd set xqd0 xqd1 size : Z) (m : (Z -> Z) * (Z -> Z)) (stride : Z) (cdeffed : Z -> Z -> Z)
  (x0 y0 w h : Z) (y : Z) (st : rings * (Z -> Z -> Z)) : option (rings * (Z -> Z -> Z)) :=
  let '(g, out) := st in
  let s_r2 := params_s set 0 in
  let line k x := cdeffed (y0 + y + k) (x0 + x) in
  do gf <- (if 0 <? s_r2 then
      do g <- ab_r2 bd size m stride (y + 2) w s_r2 ((y / 2 + 1) mod 2) g;
      let f x := f_r2 (fun k => a2 g ((y / 2 + k) mod 2)) (fun k => b2 g ((y / 2 + k) mod 2)) (line 0) (line 1) x in
      Some (g, fun dy x => if dy =? 0 then fst (f x) else snd (f x))
    else Some (g, fun dy => f_r0 (line 0)));
  let '(g, f2) := gf in
  ofor 0 (Z.min 2 (h - y)) (fun dy => stripe_row bd set xqd0 xqd1 size m stride cdeffed x0 y0 w (f2 dy) (y + dy)) (g, out).

(** lrf.rs 640-822: sgrproj_stripe_filter on a stripe of [w] by [h] at column [x0] and row [y0] *)
Definition sgrproj_stripe_filter (bd set xqd0 xqd1 size : Z) (m : (Z -> Z) * (Z -> Z)) (stride : Z) (cdeffed : Z -> Z -> Z)
  (x0 y0 w h : Z) (out : Z -> Z -> Z) : option (Z -> Z -> Z) :=
  let zero := {| a2 := fun _ _ => 0; b2 := fun _ _ => 0; a1 := fun _ _ => 0; b1 := fun _ _ => 0 |} in
  let s_r2 := params_s set 0 in
  let s_r1 := params_s set 1 in
  (* the match on the bit depth, `unimplemented!()` *)
  if ((bd =? 8) || (bd =? 10) || (bd =? 12)) && (w <=? IMAGE_WIDTH_MAX) then
  do g <- (if 0 <? s_r2 then ab_r2 bd size m stride 0 w s_r2 0 zero else Some zero);
  do g <- (if 0 <? s_r1 then
      do g <- ab_r1 bd size m stride 0 w s_r1 0 g; ab_r1 bd size m stride 1 w s_r1 1 g else Some g);
  do st <- ofor 0 ((h + 1) / 2) (fun k => stripe_pair bd set xqd0 xqd1 size m stride cdeffed x0 y0 w h (2 * k)) (g, out);
  Some (snd st)
  else None.

(** lrf.rs 1098-1205: wiener_stripe_filter.  coeffs: [[i8; 3]; 2]; [work] is what the first
    inner loop leaves at index yi - stripe_y + 3 *)
Definition tap7 (c : Z -> Z) (i : Z) : Z := idx [c 0; c 1; c 2; 128 - 2 * (c 0 + c 1 + c 2); c 2; c 1; c 0] i.
Definition wiener_work (bd : Z) (hfilter : Z -> Z) (crop_w crop_h stripe_h stripe_y : Z)
  (cdeffed deblocked : Z -> Z -> Z) (xi yi : Z) : Z :=
  let round_h := if bd =? 12 then 5 else 3 in
  let offset := Z.shiftl 1 (bd + 7 - round_h - 1) in
  let limit := Z.shiftl 1 (bd + 1 + 7 - round_h) - 1 in
  let n := Z.min 7 (crop_w + 3 - xi) in
  let src :=
    if yi <? stripe_y then deblocked (Z.max (clamp yi 0 (crop_h - 1)) (stripe_y - 2))
    else if yi <? stripe_y + stripe_h then cdeffed (clamp yi 0 (crop_h - 1))
    else deblocked (Z.min (clamp yi 0 (crop_h - 1)) (stripe_y + stripe_h + 1)) in
  let start := src 0 in
  let end_ := src (crop_w - 1) in
  let acc := for_ 0 (3 - xi) (fun i acc => acc + hfilter i * start) 0 in
  let off := 3 - xi in
  let s := Z.max 0 off in
  let acc := for_ s n (fun i acc => acc + hfilter i * src (i - off)) acc in
  let acc := for_ n 7 (fun i acc => acc + hfilter i * end_) acc in
  clamp (Z.shiftr (acc + Z.shiftr (Z.shiftl 1 round_h) 1) round_h) (- offset) (limit - offset).
Definition wiener_px (bd : Z) (coeffs : Z -> Z -> Z) (crop_w crop_h stripe_h stripe_y : Z)
  (cdeffed deblocked : Z -> Z -> Z) (xi wi : Z) : Z :=
  let round_v := if bd =? 12 then 9 else 11 in
  let work j := wiener_work bd (tap7 (coeffs 1)) crop_w crop_h stripe_h stripe_y cdeffed deblocked xi (stripe_y - 3 + j) in
  let acc := for_ 0 7 (fun i acc => acc + tap7 (coeffs 0) i * work (wi + i)) 0 in
  clamp (Z.shiftr (acc + Z.shiftr (Z.shiftl 1 round_v) 1) round_v) 0 (Z.shiftl 1 bd - 1).
Definition wiener_stripe_filter (bd : Z) (coeffs : Z -> Z -> Z) (crop_w crop_h stripe_w stripe_h stripe_x stripe_y : Z)
  (cdeffed deblocked out : Z -> Z -> Z) : Z -> Z -> Z :=
  let start_wi := if stripe_y <? 0 then - stripe_y else 0 in
  let start_yi := if stripe_y <? 0 then 0 else stripe_y in
  let end_i := Z.max 0 (if crop_h <? stripe_h + stripe_y then crop_h - stripe_y - start_wi else stripe_h - start_wi) in
  fun y x => if (stripe_x <=? x) && (x <? stripe_x + stripe_w) && (start_yi <=? y) && (y <? start_yi + end_i)
    then wiener_px bd coeffs crop_w crop_h stripe_h stripe_y cdeffed deblocked x (start_wi + (y - start_yi))
    else out y x.

Inductive filter :=
| FNone
| FWiener (coeffs : Z -> Z -> Z)
| FSgrproj (set xqd0 xqd1 : Z).
(** one plane of a RestorationState: lrf.rs 1243-1319 *)
Record rplane := { r_unit : Z; r_stripe_height : Z; r_cols : Z; r_rows : Z; r_units : Z -> Z -> filter (* row, column *) }.
Definition unit_by_stripe (rp : rplane) (stripenum rux : Z) : filter :=
  r_units rp (Z.min (stripenum * r_stripe_height rp / r_unit rp) (r_rows rp - 1)) (Z.min rux (r_cols rp - 1)).

(** lrf.rs 1479-1584: lrf_filter_frame, one plane.  [out] is the plane on entry, of which
    `cdeffed` is the clone; subtraction below zero panics.  The buffer is shared by all stripes. *)
Definition lrf_unit (bd : Z) (enable_cdef : bool) (ydec crop_w crop_h : Z) (rp : rplane) (cdeffed pre_cdef : Z -> Z -> Z)
  (si rux : Z) (st : ((Z -> Z) * (Z -> Z)) * (Z -> Z -> Z)) : option (((Z -> Z) * (Z -> Z)) * (Z -> Z -> Z)) :=
  let '(buf, out) := st in
  let start := Z.shiftr (si * 64 - 8) ydec in
  if (0 <? si) && (crop_h <? start) then None else
  let stripe_start_y := if si =? 0 then 0 else start in
  let stripe_size := if si =? 0 then Z.shiftr (64 - 8) ydec else Z.min (Z.shiftr 64 ydec) (crop_h - start) in
  let x := rux * r_unit rp in
  if crop_w <? x then None else
  let size := if rux =? r_cols rp - 1 then crop_w - x else r_unit rp in
  match unit_by_stripe rp si rux with
  | FWiener coeffs => Some (buf, wiener_stripe_filter bd coeffs crop_w crop_h size stripe_size x stripe_start_y cdeffed pre_cdef out)
  | FSgrproj set xqd0 xqd1 =>
      if negb enable_cdef then Some (buf, out) else
      do buf <- setup_integral_image STRIPE_IMAGE_SIZE STRIPE_IMAGE_STRIDE (crop_w - x) (crop_h - stripe_start_y)
                  size stripe_size cdeffed pre_cdef x stripe_start_y buf;
      do out <- sgrproj_stripe_filter bd set xqd0 xqd1 STRIPE_IMAGE_SIZE buf STRIPE_IMAGE_STRIDE cdeffed x stripe_start_y size stripe_size out;
      Some (buf, out)
  | FNone => Some (buf, out)
  end.
Definition lrf_filter_plane (bd : Z) (enable_cdef : bool) (width height xdec ydec : Z) (rp : rplane)
  (out pre_cdef : Z -> Z -> Z) : option (Z -> Z -> Z) :=
  let cdeffed := out in
  let stripe_n := (height + 7) / 64 + 1 in
  let crop_w := Z.shiftr (width + Z.shiftr (Z.shiftl 1 xdec) 1) xdec in
  let crop_h := Z.shiftr (height + Z.shiftr (Z.shiftl 1 ydec) 1) ydec in
  do st <- ofor 0 stripe_n (fun si => ofor 0 (r_cols rp) (fun rux =>
    lrf_unit bd enable_cdef ydec crop_w crop_h rp cdeffed pre_cdef si rux)) ((fun _ => 0, fun _ => 0), out);
  Some (snd st).

(** lrf.rs 1325-1443: RestorationState::new, the sizes of the units of luma and chroma;
    [tzh], [tzv] are the trailing zeros of the width and height of a tile in superblocks *)
Definition unit_sizes (xdec ydec : Z) (large restoration sb128 : bool) (base_q_idx width height : Z) (tiled : bool) (tzh tzv : Z) : Z * Z :=
  let decimate := if (0 <? xdec) && (0 <? ydec) then 1 else 0 in
  let y_sb_log2 := if sb128 then 7 else 6 in
  let '(ys, uvs) :=
    if large && restoration then
      let base := if 200 <? base_q_idx then 0 else if 160 <? base_q_idx then 1 else 2 in
      let chroma := if 0 <? decimate then
          if base =? 2 then 1 else
            let u := Z.shiftl 1 (8 - base) in
            let stretch v s := (Z.shiftr width xdec - 1) mod v <=? s in
            let stretch_h v s := (Z.shiftr height ydec - 1) mod v <=? s in
            let unshifted := stretch u (u / 2) || stretch_h u (u / 2) in
            let shifted := stretch (Z.shiftr u 1) (u / 4) || stretch_h (Z.shiftr u 1) (u / 4) in
            if unshifted && negb shifted then 1 else 0
        else 0 in
      (base, base + chroma)
    else let s := if sb128 then 1 else 2 in (s, s + decimate) in
  let y := Z.shiftl 1 (8 - ys) in
  let uv := Z.shiftl 1 (8 - uvs) in
  let '(y, uv) := if tiled then
      (Z.min y (Z.shiftl 1 (y_sb_log2 + Z.min tzh tzv)),
       Z.min uv (Z.min (Z.shiftl 1 (y_sb_log2 - xdec + tzh)) (Z.shiftl 1 (y_sb_log2 - ydec + tzv))))
    else (y, uv) in
  if (ydec =? 0) && negb (y =? uv) then (Z.min uv y, Z.min uv y) else (y, uv).
(* lrf.rs 1402-1415: units in one direction of a plane of [size] pixels *)
Definition unit_count (size unit : Z) : Z := Z.max ((size + Z.shiftr unit 1) / unit) 1.
(* lrf.rs 1265-1290, 1417-1443: the plane [luma] or not, of a frame whose chroma has xdec, ydec *)
Definition new_plane (luma : bool) (xdec ydec unit width height : Z) (units : Z -> Z -> filter) : rplane :=
  let dx := if luma then 0 else xdec in
  let dy := if luma then 0 else ydec in
  {| r_unit := unit; r_stripe_height := if luma then 64 else if (0 <? xdec) && (0 <? ydec) then 32 else 64;
     r_cols := unit_count (Z.shiftr (width + Z.shiftr (Z.shiftl 1 dx) 1) dx) unit;
     r_rows := unit_count (Z.shiftr (height + Z.shiftr (Z.shiftl 1 dy) 1) dy) unit; r_units := units |}.
