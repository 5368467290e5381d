(** Model of intra prediction, src/predict.rs: [predict_intra], the portable kernels of
    [mod rust] and the choice of the edge filter.

    A slice is a length with a function; reading outside it, or a failed assertion,
    is a panic, [None].  A prediction is given sample by sample: row i, column j.  A pixel
    type has tbits bits (8 or 16) and [cast] is T::cast_from.  Sums in u32, i32 and isize
    are plain integers: samples have at most 12 bits and at most 128 are added with weights
    below 2^11.  The i16 arithmetic of chroma from luma is wrapped. *)
From Verif Require Import Base Edge_model.
Local Open Scope Z_scope.

Record slice := mkSlice { s_len : Z; s_at : Z -> Z }.
Definition rd (s : slice) (i : Z) : option Z := if (0 <=? i) && (i <? s_len s) then Some (s_at s i) else None.
Definition obind {A B} (o : option A) (f : A -> option B) : option B := match o with Some a => f a | None => None end.
Notation "'do' x <- e ; f" := (obind e (fun x => f)) (at level 200, x name, e at level 100, f at level 200).
Definition guard {A} (c : bool) (o : option A) : option A := if c then o else None.
(* the first n elements: s[..n] *)
Definition take (n : Z) (s : slice) : option slice := guard (n <=? s_len s) (Some (mkSlice n (s_at s))).
(* left[left.len().saturating_sub(n)..] *)
Definition last_of (n : Z) (s : slice) : slice :=
  let start := Z.max 0 (s_len s - n) in mkSlice (s_len s - start) (fun i => s_at s (start + i)).
Definition fold_sum (s : slice) : Z := fold_left (fun acc i => s_at s (Z.of_nat i) + acc) (seq 0 (Z.to_nat (s_len s))) 0.
Definition clamp (lo hi v : Z) : Z := Z.max lo (Z.min hi v).
Definition round_shift (v n : Z) : Z := Z.shiftr (v + Z.shiftr (Z.shiftl 1 n) 1) n.
Definition i16 (v : Z) : Z := let r := v mod 65536 in if r <? 32768 then r else r - 65536.

(* 601-625 *)
Definition sm_weight_arrays : list Z :=
  [0; 0; 255; 128; 255; 149; 85; 64; 255; 197; 146; 105; 73; 50; 37; 32;
   255; 225; 196; 170; 145; 123; 102; 84; 68; 54; 43; 33; 26; 20; 17; 16;
   255; 240; 225; 210; 196; 182; 169; 157; 145; 133; 122; 111; 101; 92; 83; 74;
   66; 59; 52; 45; 39; 34; 29; 25; 21; 17; 14; 12; 10; 9; 8; 8;
   255; 248; 240; 233; 225; 218; 210; 203; 196; 189; 182; 176; 169; 163; 156;
   150; 144; 138; 133; 127; 121; 116; 111; 106; 101; 96; 91; 86; 82; 77; 73; 69;
   65; 61; 57; 54; 50; 47; 44; 41; 38; 35; 32; 29; 27; 25; 22; 20; 18; 16; 15;
   13; 12; 10; 9; 8; 7; 6; 6; 5; 5; 4; 4; 4].
(* sm_weight_arrays[size..][k] *)
Definition sm_weight (size k : Z) : option Z := nth_error sm_weight_arrays (Z.to_nat (size + k)).
(* the assertions before the loops, 905-909, 959-962, 1003-1006 *)
Definition sm_sane (size : Z) : bool :=
  match sm_weight size 0, sm_weight size (size - 1) with Some a, Some b => (a <? 256) && (256 - b <? 256) | _, _ => false end.

(* 1123-1182 *)
Definition select_ief_strength (width height : Z) (smooth_filter : bool) (angle_delta : Z) : Z :=
  let block_wh := width + height in
  let abs_delta := Z.abs angle_delta in
  if smooth_filter then
    if block_wh <=? 8 then (if 64 <=? abs_delta then 2 else if 40 <=? abs_delta then 1 else 0)
    else if block_wh <=? 16 then (if 48 <=? abs_delta then 2 else if 20 <=? abs_delta then 1 else 0)
    else if block_wh <=? 24 then (if 4 <=? abs_delta then 3 else 0)
    else 3
  else
    if block_wh <=? 8 then (if 56 <=? abs_delta then 1 else 0)
    else if block_wh <=? 16 then (if 40 <=? abs_delta then 1 else 0)
    else if block_wh <=? 24 then
      (if 32 <=? abs_delta then 3 else if 16 <=? abs_delta then 2 else if 8 <=? abs_delta then 1 else 0)
    else if block_wh <=? 32 then (if 32 <=? abs_delta then 3 else if 4 <=? abs_delta then 2 else 1)
    else 3.
(* 1184-1197 *)
Definition select_ief_upsample (width height : Z) (smooth_filter : bool) (angle_delta : Z) : bool :=
  let block_wh := width + height in
  let abs_delta := Z.abs angle_delta in
  if (abs_delta =? 0) || (40 <=? abs_delta) then false
  else if smooth_filter then block_wh <=? 8 else block_wh <=? 16.
(* 1263-1295 *)
Definition dr_intra_derivative (p_angle : Z) : Z :=
  match p_angle with
  | 3 => 1023 | 6 => 547 | 9 => 372 | 14 => 273 | 17 => 215 | 20 => 178 | 23 => 151 | 26 => 132 | 29 => 116
  | 32 => 102 | 36 => 90 | 39 => 80 | 42 => 71 | 45 => 64 | 48 => 57 | 51 => 51 | 54 => 45 | 58 => 40 | 61 => 35
  | 64 => 31 | 67 => 27 | 70 => 23 | 73 => 19 | 76 => 15 | 81 => 11 | 84 => 7 | 87 => 3 | _ => 0
  end.

Section Kernels.
Variables (tbits bit_depth width height : Z).
Definition cast (v : Z) : Z := v mod 2 ^ tbits.
Definition sample_max : Z := 2 ^ bit_depth - 1.

(* 1199-1227 *)
Definition INTRA_EDGE_KERNEL (strength j : Z) : Z :=
  nth (Z.to_nat j) (nth (Z.to_nat (strength - 1)) [[0; 4; 8; 4; 0]; [0; 5; 6; 5; 0]; [2; 4; 4; 4; 2]] []) 0.
Definition filter_edge (size strength : Z) (edge : slice) : option slice :=
  if strength =? 0 then Some edge
  else guard ((s_len edge <=? 257) && (size <=? s_len edge))
    (Some (mkSlice (s_len edge) (fun i =>
      if (1 <=? i) && (i <? size) then
        let tap j := INTRA_EDGE_KERNEL strength j * s_at edge (Z.min (Z.max 0 (i + j - 2)) (size - 1)) in
        cast (Z.shiftr (tap 0 + tap 1 + tap 2 + tap 3 + tap 4 + 8) 4)
      else s_at edge i))).
(* 1229-1261; / truncates towards zero *)
Definition upsample_edge (size : Z) (edge : slice) : option slice :=
  guard ((size + 3 <=? 64) && (size <? s_len edge) && (2 * size <? s_len edge))
    (let dup k := if k =? 0 then s_at edge 0 else if k <=? size + 1 then s_at edge (k - 1) else s_at edge size in
     Some (mkSlice (s_len edge) (fun k =>
       if k =? 0 then dup 0
       else if k <=? 2 * size then
         if Z.odd k then
           let i := (k - 1) / 2 in
           let s := - dup i + 9 * dup (i + 1) + 9 * dup (i + 2) - dup (i + 3) in
           cast (clamp 0 sample_max (Z.quot (s + 8) 16))
         else dup ((k - 2) / 2 + 2)
       else s_at edge k))).
Definition reverse (s : slice) : slice := mkSlice (s_len s) (fun i => s_at s (s_len s - 1 - i)).

(* 1297-1505.  [ief] is the result of use_smooth_filter when the edge filter is enabled; rw and rh
   are max_x - output.rect().x + 1 and the same for y *)
Definition directional_edges (above left : slice) (top_left p_angle : Z) (ief : option bool) (rw rh : Z) :
    option (slice * slice * Z * Z) :=
  match ief with
  | None => Some (above, left, 0, 0)
  | Some smooth_filter =>
      let len := (width + height) * 2 + 1 in
      guard (len <=? 257)
      (let above_len := Z.min (s_len above) (len - 1) in
       let left_len := Z.min (s_len left) (len - 1) in
       let diag := negb (p_angle =? 90) && negb (p_angle =? 180) in
       let first := if diag then top_left else 0 in
       let above_filtered := mkSlice len (fun i =>
         if (1 <=? i) && (i <=? above_len) then s_at above (i - 1) else if i =? 0 then first else 0) in
       let left_filtered := mkSlice len (fun i =>
         if (1 <=? i) && (i <=? left_len) then s_at left (s_len left - i) else if i =? 0 then first else 0) in
       do a1 <- (if diag then guard (0 <=? rw) (filter_edge (Z.min width rw + (if p_angle <? 90 then height else 0) + 1)
                   (select_ief_strength width height smooth_filter (p_angle - 90)) above_filtered) else Some above_filtered);
       do l1 <- (if diag then guard (0 <=? rh) (filter_edge (Z.min height rh + (if 180 <? p_angle then width else 0) + 1)
                   (select_ief_strength width height smooth_filter (p_angle - 180)) left_filtered) else Some left_filtered);
       let upsample_above := select_ief_upsample width height smooth_filter (p_angle - 90) in
       let upsample_left := select_ief_upsample width height smooth_filter (p_angle - 180) in
       do a2 <- (if upsample_above then upsample_edge (width + (if p_angle <? 90 then height else 0)) a1 else Some a1);
       do l2 <- (if upsample_left then upsample_edge (height + (if 180 <? p_angle then width else 0)) l1 else Some l1);
       Some (a2, reverse l2, (if upsample_above then 1 else 0), (if upsample_left then 1 else 0)))
  end.
Definition blend (a b shift : Z) : Z := cast (clamp 0 sample_max (round_shift (a * (32 - shift) + b * shift) 5)).
Definition pred_directional (above left : slice) (top_left p_angle : Z) (ief : option bool) (rw rh i j : Z) : option Z :=
  do es <- directional_edges above left top_left p_angle ief rw rh;
  let '(above_edge, left_edge, upsample_above, upsample_left) := es in
  let enable := match ief with Some _ => true | None => false end in
  let dx := if p_angle <? 90 then dr_intra_derivative p_angle
    else if (90 <? p_angle) && (p_angle <? 180) then dr_intra_derivative (180 - p_angle) else 0 in
  let dy := if (90 <? p_angle) && (p_angle <? 180) then dr_intra_derivative (p_angle - 90)
    else if 180 <? p_angle then dr_intra_derivative (270 - p_angle) else 0 in
  let offset_above := Z.shiftl (if enable then 1 else 0) upsample_above in
  let offset_left := Z.shiftl (if enable then 1 else 0) upsample_left in
  if p_angle <? 90 then
    let idx := (i + 1) * dx in
    let base := Z.shiftr idx (6 - upsample_above) + Z.shiftl j upsample_above in
    let shift := Z.land (Z.shiftr (Z.shiftl idx upsample_above) 1) 31 in
    let max_base_x := Z.shiftl (height + width - 1) upsample_above in
    if base <? max_base_x then
      do a <- rd above_edge (base + offset_above); do b <- rd above_edge (base + 1 + offset_above);
      Some (blend a b shift)
    else do c <- rd above_edge (max_base_x + offset_above); Some (cast (clamp 0 sample_max c))
  else if (90 <? p_angle) && (p_angle <? 180) then
    let idx := Z.shiftl j 6 - (i + 1) * dx in
    let base := Z.shiftr idx (6 - upsample_above) in
    if - Z.shiftl 1 upsample_above <=? base then
      let shift := Z.land (Z.shiftr (Z.shiftl idx upsample_above) 1) 31 in
      do a <- (if negb enable && (base <? 0) then Some top_left else rd above_edge (base + offset_above));
      do b <- rd above_edge (base + 1 + offset_above);
      Some (blend a b shift)
    else
      let idx := Z.shiftl i 6 - (j + 1) * dy in
      let base := Z.shiftr idx (6 - upsample_left) in
      let shift := Z.land (Z.shiftr (Z.shiftl idx upsample_left) 1) 31 in
      let l := s_len left_edge - 1 in
      do a <- (if negb enable && (base <? 0) then Some top_left
               else if base + offset_left =? -2 then rd left_edge 0
               else guard (0 <=? base + offset_left) (rd left_edge (l - (base + offset_left))));
      do b <- (if base + offset_left =? -2 then rd left_edge 1
               else guard (0 <=? base + offset_left + 1) (rd left_edge (l - (base + offset_left + 1))));
      Some (blend a b shift)
  else if 180 <? p_angle then
    let idx := (j + 1) * dy in
    let base := Z.shiftr idx (6 - upsample_left) + Z.shiftl i upsample_left in
    let shift := Z.land (Z.shiftr (Z.shiftl idx upsample_left) 1) 31 in
    let l := s_len left_edge - 1 in
    do a <- rd left_edge (Z.max 0 (l - (base + offset_left)));
    do b <- rd left_edge (Z.max 0 (l - (base + offset_left + 1)));
    Some (blend a b shift)
  else None. (* nothing would be written *)

(* 791-848 *)
Definition pred_dc (above left : slice) : option Z :=
  do l <- take height left; do a <- take width above;
  Some (cast ((fold_sum a + fold_sum l + Z.shiftr (width + height) 1) / (width + height))).
Definition pred_dc_128 : option Z := Some (cast (Z.shiftl 128 (bit_depth - 8))).
Definition pred_dc_left (left : slice) : option Z := Some (cast ((fold_sum left + Z.shiftr height 1) / height)).
Definition pred_dc_top (above : slice) : option Z :=
  do a <- take width above; Some (cast ((fold_sum a + Z.shiftr width 1) / width)).
(* 850-867 *)
Definition pred_h (left : slice) (i : Z) : option Z := do l <- take height left; rd l (height - 1 - i).
Definition pred_v (above : slice) (j : Z) : option Z := do a <- take width above; rd a j.
(* 869-898 *)
Definition pred_paeth (above left : slice) (above_left i j : Z) : option Z :=
  do raw_left <- rd left (height - 1 - i); do raw_top <- rd above j;
  let p_base := raw_top + raw_left - above_left in
  let p_left := Z.abs (p_base - raw_left) in
  let p_top := Z.abs (p_base - raw_top) in
  let p_top_left := Z.abs (p_base - above_left) in
  Some (cast (if (p_left <=? p_top) && (p_left <=? p_top_left) then raw_left else if p_top <=? p_top_left then raw_top else above_left)).
(* 900-953 *)
Definition pred_smooth (above left : slice) (i j : Z) : option Z :=
  do below_pred <- rd left 0; do right_pred <- rd above (width - 1);
  guard (sm_sane width && sm_sane height)
  (do a <- rd above j; do l <- rd left (height - 1 - i); do wh <- sm_weight height i; do ww <- sm_weight width j;
   Some (cast (Z.shiftr (wh * a + (256 - wh) * below_pred + ww * l + (256 - ww) * right_pred + Z.shiftl 1 (9 - 1)) 9))).
(* 955-997 *)
Definition pred_smooth_h (above left : slice) (i j : Z) : option Z :=
  do right_pred <- rd above (width - 1);
  guard (sm_sane width)
  (do l <- rd left (height - 1 - i); do ww <- sm_weight width j;
   Some (cast (Z.shiftr (ww * l + (256 - ww) * right_pred + Z.shiftl 1 (8 - 1)) 8))).
(* 999-1041 *)
Definition pred_smooth_v (above left : slice) (i j : Z) : option Z :=
  do below_pred <- rd left 0;
  guard (sm_sane height)
  (do a <- rd above j; do wh <- sm_weight height i;
   Some (cast (Z.shiftr (wh * a + (256 - wh) * below_pred + Z.shiftl 1 (8 - 1)) 8))).
(* 627-636: the product of two i16 fits i32 *)
Definition get_scaled_luma_q0 (alpha_q3 ac_pred_q3 : Z) : Z :=
  let scaled_luma_q6 := alpha_q3 * ac_pred_q3 in
  let abs_scaled_luma_q0 := Z.shiftr (Z.abs scaled_luma_q6 + 32) 6 in
  if scaled_luma_q6 <? 0 then - abs_scaled_luma_q0 else abs_scaled_luma_q0.
(* 1089-1115; ac is stored by rows of width samples *)
Definition pred_cfl_inner (avg alpha : Z) (ac : slice) (i j : Z) : option Z :=
  if alpha =? 0 then Some avg
  else do l <- rd ac (i * width + j); Some (cast (clamp 0 sample_max (avg + get_scaled_luma_q0 alpha l))).

(* 122-137 and 220-225, 714-731, 1117-1155: the variants of DC *)
Definition dc_variant (x y : Z) (above left : slice) : option Z :=
  if x =? 0 then (if y =? 0 then pred_dc_128 else pred_dc_top above)
  else if y =? 0 then pred_dc_left left else pred_dc above left.
(* 208-254 and 697-789: x and y are relative to the tile *)
Definition predict_intra (mode : pmode) (x y alpha angle_delta : Z) (ac : slice) (ief : option bool) (rw rh : Z)
    (left : slice) (top_left : Z) (above : slice) (i j : Z) : option Z :=
  let m := match mode with
    | PAETH_PRED => if x =? 0 then (if y =? 0 then DC_PRED else V_PRED) else if y =? 0 then H_PRED else PAETH_PRED
    | UV_CFL_PRED => if alpha =? 0 then DC_PRED else UV_CFL_PRED
    | _ => mode
    end in
  let angle := match m with UV_CFL_PRED => alpha | _ => intra_mode_to_angle m + angle_delta * 3 end in
  let left_slice := last_of height left in
  let left_and_left_below_slice := last_of (width + height) left in
  let directional := pred_directional above left_and_left_below_slice top_left angle ief rw rh i j in
  match m with
  | DC_PRED => dc_variant x y above left_slice
  | V_PRED => if angle =? 90 then pred_v above j else directional
  | H_PRED => if angle =? 180 then pred_h left_slice i else directional
  | D45_PRED | D135_PRED | D113_PRED | D157_PRED | D203_PRED | D67_PRED => directional
  | SMOOTH_PRED => pred_smooth above left_slice i j
  | SMOOTH_V_PRED => pred_smooth_v above left_slice i j
  | SMOOTH_H_PRED => pred_smooth_h above left_slice i j
  | PAETH_PRED => pred_paeth above left_slice top_left i j
  | UV_CFL_PRED => do avg <- dc_variant x y above left_slice; pred_cfl_inner avg (i16 angle) ac i j
  end.
End Kernels.

(** The edge buffer of src/partition.rs: left samples are stored upwards. *)
Definition left_of (e : edges) : slice := mkSlice (e_nl e) (fun i => e_left e (e_nl e - 1 - i)).
Definition above_of (e : edges) : slice := mkSlice (e_na e) (e_above e).

(** ** Chroma from luma *)
(* 1043-1087: pw and ph are the size of the chroma block, luma is the region that starts at the
   block; None is an index of luma before the region or a negative length *)
Section CflAc.
Variables (xdec ydec pw ph w_pad h_pad : Z) (luma : Z -> Z -> Z).
Definition cfl_max_x : Z := Z.max (Z.shiftl (pw - w_pad * 4) xdec) 8 - Z.shiftl 1 xdec.
Definition cfl_max_y : Z := Z.max (Z.shiftl (ph - h_pad * 4) ydec) 8 - Z.shiftl 1 ydec.
Definition cfl_sample (sub_y sub_x : Z) : Z :=
  let y := Z.min (Z.shiftl sub_y ydec) cfl_max_y in
  let x := Z.min (Z.shiftl sub_x xdec) cfl_max_x in
  let s := i16 (luma y x) in
  let s := if negb (xdec =? 0) then i16 (s + i16 (luma y (x + 1))) else s in
  let s := if negb (ydec =? 0) then i16 (s + i16 (i16 (luma (y + 1) x) + i16 (luma (y + 1) (x + 1)))) else s in
  i16 (Z.shiftl s (3 - xdec - ydec)).
Definition cfl_sum : Z :=
  fold_left (fun acc k => acc + cfl_sample (Z.of_nat k / pw) (Z.of_nat k mod pw)) (seq 0 (Z.to_nat (pw * ph))) 0.
Definition cfl_average : Z :=
  let shift := Z.log2 pw + Z.log2 ph in i16 (Z.shiftr (cfl_sum + Z.shiftl 1 (shift - 1)) shift).
Definition pred_cfl_ac : slice :=
  mkSlice (pw * ph) (fun k => i16 (cfl_sample (k / pw) (k mod pw) - cfl_average)).
End CflAc.
(* 645-695: bw, bh the size of the luma block, tw, th that of its transforms, by_ and bx its
   position in samples, fw and fh the size of the frame in whole blocks *)
Definition luma_max (b clipped t : Z) : Z := if 8 <? b then Z.shiftl (Z.shiftr (clipped + Z.shiftl 1 (Z.log2 t) - 1) (Z.log2 t)) (Z.log2 t) else b.
Definition luma_pad (dec f pos b t : Z) : Z := Z.shiftr (b - luma_max b (Z.min (f - pos) b) t) (2 + dec).
(* 4 wide blocks take the luma of the block before too: src/partition.rs sub8x8_offset *)
Definition luma_start (dec pos b : Z) : Z := if (dec =? 1) && (b =? 4) then pos - 4 else pos.

(** ** The choice of the edge filter, 480-595 *)
(* what is stored for a block; inter modes are [None] *)
Record block_info := mkInfo { luma_mode : option pmode; chroma_mode : option pmode; ref0_intra : bool }.
Definition smooth_pmode (m : option pmode) : bool :=
  match m with Some SMOOTH_PRED | Some SMOOTH_V_PRED | Some SMOOTH_H_PRED => true | _ => false end.
Definition side_smooth (plane : Z) (bi : option block_info) : bool :=
  match bi with
  | Some b => smooth_pmode (if plane =? 0 then luma_mode b else chroma_mode b) && ((plane =? 0) || ref0_intra b)
  | None => false
  end.
Definition use_smooth_filter (plane : Z) (above left : option block_info) : bool := side_smooth plane above || side_smooth plane left.
(* src/tiling/tile_state.rs 229-265; coded is the block information of the tile, by row and column *)
Section Neighbours.
Variable coded : Z -> Z -> block_info.
Definition above_block_info (xdec ydec bo_y bo_x : Z) : option block_info :=
  let x := if Z.land bo_x 1 =? 0 then bo_x + xdec else bo_x in
  let y := if Z.land bo_y 1 =? 1 then bo_y - ydec else bo_y in
  if y =? 0 then None else Some (coded (y - 1) x).
Definition left_block_info (xdec ydec bo_y bo_x : Z) : option block_info :=
  let x := if Z.land bo_x 1 =? 1 then bo_x - xdec else bo_x in
  let y := if Z.land bo_y 1 =? 0 then bo_y + ydec else bo_y in
  if x =? 0 then None else Some (coded y (x - 1)).
(* src/encoder.rs 1457-1469 *)
Definition smooth_filter (plane xdec ydec bo_y bo_x : Z) : bool :=
  let '(px, py) := if plane =? 0 then (0, 0) else (xdec, ydec) in
  use_smooth_filter plane (above_block_info px py bo_y bo_x) (left_block_info px py bo_y bo_x).
End Neighbours.
