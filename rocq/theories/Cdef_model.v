(** Model of src/cdef.rs: direction search, the filter of one block with its padded
    buffer, and the loops over superblocks.  Memory is flat: a plane is a function from the
    offset to the sample, and pointers are offsets. *)
From Verif Require Import Base.
Open Scope Z_scope.

(* a panic is None *)
Definition bind {A B} (o : option A) (f : A -> option B) : option B :=
  match o with Some a => f a | None => None end.
Notation "'do' x <- o ; k" := (bind o (fun x => k)) (at level 200, x name, o at level 100, k at level 200).

Definition zrange (a b : Z) : list Z := map (fun k => a + Z.of_nat k) (seq 0 (Z.to_nat (b - a))).
(* the unwrapped index of a literal array *)
Definition idx (l : list Z) (i : Z) : Z := nth (Z.to_nat i) l 0.

(* cdef.rs 29-38 *)
Definition CDEF_VERY_LARGE : Z := 32768.
Definition CDEF_HAVE_LEFT : Z := 1.
Definition CDEF_HAVE_RIGHT : Z := 2.
Definition CDEF_HAVE_TOP : Z := 4.
Definition CDEF_HAVE_BOTTOM : Z := 8.
Definition CDEF_HAVE_ALL : Z := 15.
Definition CDEF_SEC_STRENGTHS : Z := 4.
Definition have (edges flag : Z) : bool := negb (Z.land edges flag =? 0).

(* cdef.rs 53 *)
Definition CDEF_DIV_TABLE : list Z := [0; 840; 420; 280; 210; 168; 140; 120; 105].

(* cdef.rs 65-73: max_by_key with the key (v, -i), compared lexicographically; a later
   element replaces an earlier one if its key is not smaller *)
Definition key_le (v1 k1 v2 k2 : Z) : bool := (v1 <? v2) || ((v1 =? v2) && (k1 <=? k2)).
Definition first_max_element (elems : list Z) : Z * Z :=
  match combine (zrange 0 (zlen elems)) elems with
  | [] => (0, 0)   (* unwrap of None; not reached, the slice has 8 elements *)
  | e :: r => fold_left (fun b e =>
      if key_le (snd b) (- fst b) (snd e) (- fst e) then e else b) r e
  end.

(* arrays: functions from the index *)
Definition add2 (a : Z -> Z -> Z) (d k x : Z) : Z -> Z -> Z :=
  fun d' k' => if (d' =? d) && (k' =? k) then a d' k' + x else a d' k'.
Definition set1 (a : Z -> Z) (k x : Z) : Z -> Z := fun k' => if k' =? k then x else a k'.

(* cdef.rs 90-108: the accumulation of the partial sums *)
Definition partials (img : Z -> Z -> Z) (coeff_shift : Z) : Z -> Z -> Z :=
  fold_left (fun p i => fold_left (fun p j =>
    let x := Z.shiftr (img i j) coeff_shift - 128 in
    let p := add2 p 0 (i + j) x in
    let p := add2 p 1 (i + j / 2) x in
    let p := add2 p 2 i x in
    let p := add2 p 3 (3 + i - j / 2) x in
    let p := add2 p 4 (7 + i - j) x in
    let p := add2 p 5 (3 - i / 2 + j) x in
    let p := add2 p 6 j x in
    add2 p 7 (i / 2 + j) x) (zrange 0 8) p) (zrange 0 8) (fun _ _ => 0).

(* cdef.rs 109-138: the costs, in five steps *)
Definition costs1 (p : Z -> Z -> Z) : Z -> Z :=
  fold_left (fun c i =>
    let c := set1 c 2 (c 2 + p 2 i * p 2 i) in
    set1 c 6 (c 6 + p 6 i * p 6 i)) (zrange 0 8) (fun _ => 0).
Definition costs2 (c : Z -> Z) : Z -> Z :=
  let c := set1 c 2 (c 2 * idx CDEF_DIV_TABLE 8) in
  set1 c 6 (c 6 * idx CDEF_DIV_TABLE 8).
Definition costs3 (p : Z -> Z -> Z) (c : Z -> Z) : Z -> Z :=
  fold_left (fun c i =>
    let c := set1 c 0 (c 0 + (p 0 i * p 0 i + p 0 (14 - i) * p 0 (14 - i)) * idx CDEF_DIV_TABLE (i + 1)) in
    set1 c 4 (c 4 + (p 4 i * p 4 i + p 4 (14 - i) * p 4 (14 - i)) * idx CDEF_DIV_TABLE (i + 1)))
    (zrange 0 7) c.
Definition costs4 (p : Z -> Z -> Z) (c : Z -> Z) : Z -> Z :=
  let c := set1 c 0 (c 0 + p 0 7 * p 0 7 * idx CDEF_DIV_TABLE 8) in
  set1 c 4 (c 4 + p 4 7 * p 4 7 * idx CDEF_DIV_TABLE 8).
Definition costs5 (p : Z -> Z -> Z) (c : Z -> Z) (i : Z) : Z -> Z :=
  let c := fold_left (fun c j => set1 c i (c i + p i (3 + j) * p i (3 + j))) (zrange 0 5) c in
  let c := set1 c i (c i * idx CDEF_DIV_TABLE 8) in
  fold_left (fun c j =>
    set1 c i (c i + (p i j * p i j + p i (10 - j) * p i (10 - j)) * idx CDEF_DIV_TABLE (2 * j + 2)))
    (zrange 0 3) c.
Definition costs (p : Z -> Z -> Z) : Z -> Z :=
  fold_left (costs5 p) [1; 3; 5; 7] (costs4 p (costs3 p (costs2 (costs1 p)))).

(* cdef.rs 82-148: the direction and the variance *)
Definition cdef_find_dir (img : Z -> Z -> Z) (coeff_shift : Z) : Z * Z :=
  let c := costs (partials img coeff_shift) in
  let '(best_dir, best_cost) := first_max_element (map c (zrange 0 8)) in
  (best_dir, Z.shiftr (best_cost - c (Z.land (best_dir + 4) 7)) 10).

(* util/math.rs: the index of the top bit; clamp of two values in order *)
Definition msb (x : Z) : Z := Z.log2 x.
Definition clamp (v lo hi : Z) : Z := if v <? lo then lo else if hi <? v then hi else v.

(* cdef.rs 150-164 *)
Definition constrain (diff threshold damping : Z) : Z :=
  if negb (threshold =? 0) then
    let shift := Z.max 0 (damping - msb threshold) in
    let magnitude := clamp (threshold - Z.shiftr (Z.abs diff) shift) 0 (Z.abs diff) in
    if diff <? 0 then - magnitude else magnitude
  else 0.

(* cdef.rs 166-201: [d0] and [s0] are the pointers [dst] and [src] *)
Definition pad_into_tmp16 (tmp : Z -> Z) (d0 dst_stride : Z) (src : Z -> Z) (s0 src_stride : Z)
  (block_width block_height edges : Z) : Z -> Z :=
  let w := block_width in
  let h := block_height in
  let '(w, dst_col, src_col) :=
    if have edges CDEF_HAVE_LEFT then (w + 2, d0, s0 - 2) else (w, d0 + 2, s0) in
  let w := if have edges CDEF_HAVE_RIGHT then w + 2 else w in
  let '(h, dst_ptr, src_ptr) :=
    if have edges CDEF_HAVE_TOP then (h + 2, dst_col, src_col - 2 * src_stride)
    else (h, dst_col + 2 * dst_stride, src_col) in
  let h := if have edges CDEF_HAVE_BOTTOM then h + 2 else h in
  fst (fst (fold_left (fun st _ =>
    let '(tmp, dst_ptr, src_ptr) := st in
    (fold_left (fun tmp x => set1 tmp (dst_ptr + x) (src (src_ptr + x))) (zrange 0 w) tmp,
     dst_ptr + dst_stride, src_ptr + src_stride))
    (zrange 0 h) (tmp, dst_ptr, src_ptr))).

(* cdef.rs 241-251 *)
Definition cdef_directions (istride : Z) : list (list Z) :=
  [ [-1 * istride + 1; -2 * istride + 2];
    [0 * istride + 1; -1 * istride + 2];
    [0 * istride + 1; 0 * istride + 2];
    [0 * istride + 1; 1 * istride + 2];
    [1 * istride + 1; 2 * istride + 2];
    [1 * istride + 0; 2 * istride + 1];
    [1 * istride + 0; 2 * istride + 0];
    [1 * istride + 0; 2 * istride - 1] ].
Definition idx2 (l : list (list Z)) (i k : Z) : Z := idx (nth (Z.to_nat i) l []) k.

(* cdef.rs 252-301: the filter of one sample, at [ptr_in] *)
Definition filter_px (input : Z -> Z) (ptr_in istride pri_strength sec_strength dir damping bit_depth : Z) : Z :=
  let coeff_shift := bit_depth - 8 in
  let par := Z.land (Z.shiftr pri_strength coeff_shift) 1 in
  let pri_taps := nth (Z.to_nat par) [[4; 2]; [3; 3]] [] in
  let sec_taps := nth (Z.to_nat par) [[2; 1]; [2; 1]] [] in
  let x := input ptr_in in
  let '(sum, max, min) := fold_left (fun st k =>
    let d0 := idx2 (cdef_directions istride) dir k in
    let d1 := idx2 (cdef_directions istride) (Z.land (dir + 2) 7) k in
    let d2 := idx2 (cdef_directions istride) (Z.land (dir + 6) 7) k in
    let pri_tap := idx pri_taps k in
    let st := fold_left (fun st p_elem =>
      let '(sum, max, min) := st in
      (sum + pri_tap * constrain (p_elem - x) pri_strength damping,
       (if negb (p_elem =? CDEF_VERY_LARGE) then Z.max p_elem max else max),
       Z.min p_elem min))
      [input (ptr_in + d0); input (ptr_in - d0)] st in
    let sec_tap := idx sec_taps k in
    fold_left (fun st s_elem =>
      let '(sum, max, min) := st in
      (sum + sec_tap * constrain (s_elem - x) sec_strength damping,
       (if negb (s_elem =? CDEF_VERY_LARGE) then Z.max s_elem max else max),
       Z.min s_elem min))
      [input (ptr_in + d1); input (ptr_in - d1); input (ptr_in + d2); input (ptr_in - d2)] st)
    [0; 1] (0, x, x) in
  let v := x + Z.shiftr (8 + sum - (if sum <? 0 then 1 else 0)) 4 in
  clamp v min max.

(* cdef.rs 205-305: the samples of the block, by row and column.  [junk] is what memory
   holds next to the array [tmp] of 144 elements. *)
Definition cdef_filter_block (junk : Z -> Z) (input : Z -> Z) (ptr istride pri_strength sec_strength dir
  damping bit_depth xdec ydec edges : Z) (i j : Z) : Z :=
  if negb (edges =? CDEF_HAVE_ALL) then
    let tmpstride := 2 + Z.shiftr 8 xdec + 2 in
    let tmp := fun a => if (0 <=? a) && (a <? 144) then CDEF_VERY_LARGE else junk a in
    let tmp := pad_into_tmp16 tmp 0 tmpstride input ptr istride (Z.shiftr 8 xdec) (Z.shiftr 8 ydec) edges in
    filter_px tmp (2 * tmpstride + 2 + (i * tmpstride + j)) tmpstride pri_strength sec_strength dir damping bit_depth
  else
    filter_px input (ptr + (i * istride + j)) istride pri_strength sec_strength dir damping bit_depth.

(* cdef.rs 314-323 *)
Definition adjust_strength (strength var : Z) : Z :=
  let i := if negb (Z.shiftr var 6 =? 0) then Z.min (msb (Z.shiftr var 6)) 12 else 0 in
  if negb (var =? 0) then Z.shiftr (strength * (4 + i) + 8) 4 else 0.

Record plane := { p_width : Z; p_height : Z; p_xdec : Z; p_ydec : Z; p_stride : Z;
  p_mem : Z -> Z   (* by the offset from the origin of the plane *) }.
Definition px (p : plane) (y x : Z) : Z := p_mem p (y * p_stride p + x).

(* TileBlocks: indexing outside panics *)
Record tile_blocks := { b_rows : Z; b_cols : Z; b_skip : Z -> Z -> bool; b_cdef : Z -> Z -> Z }.
Definition skip_at (b : tile_blocks) (y x : Z) : option bool :=
  if (0 <=? y) && (y <? b_rows b) && (0 <=? x) && (x <? b_cols b) then Some (b_skip b y x) else None.
Definition cdef_at (b : tile_blocks) (y x : Z) : option Z :=
  if (0 <=? y) && (y <? b_rows b) && (0 <=? x) && (x <? b_cols b) then Some (b_cdef b y x) else None.
(* the four flags read at cdef.rs 354-357 and 450-453 *)
Definition skip8 (b : tile_blocks) (sbx sby bx by_ : Z) : option bool :=
  let ox := Z.shiftl sbx 4 in let oy := Z.shiftl sby 4 in
  do s0 <- skip_at b (oy + Z.shiftl by_ 1) (ox + Z.shiftl bx 1);
  do s1 <- skip_at b (oy + 2 * by_) (ox + (2 * bx + 1));
  do s2 <- skip_at b (oy + (2 * by_ + 1)) (ox + 2 * bx);
  do s3 <- skip_at b (oy + (2 * by_ + 1)) (ox + (2 * bx + 1));
  Some (s0 && s1 && s2 && s3).

Record frame_inv := { f_bit_depth : Z; f_damping : Z; f_y_str : Z -> Z; f_uv_str : Z -> Z; f_planes : Z }.

(* the loop over a list with a state that may be lost to a panic *)
Definition ofold {A B} (f : A -> B -> option A) (l : list B) (a : A) : option A :=
  fold_left (fun o b => do a <- o; f a b) l (Some a).

(* cdef.rs 340-374: direction and variance by (bx, by), 0 where not computed *)
Definition cdef_analyze_superblock (fi : frame_inv) (in_frame : Z -> plane) (b : tile_blocks)
  (sbx sby : Z) : option (Z -> Z -> Z * Z) :=
  let coeff_shift := f_bit_depth fi - 8 in
  ofold (fun dir by_ => ofold (fun dir bx =>
    let x := Z.shiftl sbx 4 + Z.shiftl bx 1 in
    let y := Z.shiftl sby 4 + Z.shiftl by_ 1 in
    if (x <? b_cols b) && (y <? b_rows b) then
      do skip <- skip8 b sbx sby bx by_;
      if negb skip then
        let in_plane := in_frame 0 in
        (* SuperBlockOffset::plane_offset, then reslice *)
        let po_x := Z.shiftl sbx (6 - p_xdec in_plane) + 8 * bx in
        let po_y := Z.shiftl sby (6 - p_ydec in_plane) + 8 * by_ in
        let dv := cdef_find_dir (fun i j => px in_plane (po_y + i) (po_x + j)) coeff_shift in
        Some (fun bx' by' => if (bx' =? bx) && (by' =? by_) then dv else dir bx' by')
      else Some dir
    else Some dir) (zrange 0 8) dir) (zrange 0 8) (fun _ _ => (0, 0)).

Definition usize (x : Z) : Z := x mod 2 ^ 64.
(* write a block of the output *)
Definition put_block (out : Z -> Z -> Z -> Z) (p y0 x0 h w : Z) (v : Z -> Z -> Z) : Z -> Z -> Z -> Z :=
  fun p' y x => if (p' =? p) && (y0 <=? y) && (y <? y0 + h) && (x0 <=? x) && (x <? x0 + w)
                then v (y - y0) (x - x0) else out p' y x.

(* cdef.rs 466-566: one plane of one 8x8 block; [tile_x] and [tile_y] are the offset of the
   tile in the frame, which the output's subregion adds to its own offset *)
Definition filter_plane (fi : frame_inv) (junk : Z -> Z) (input : Z -> plane) (tile_x tile_y sbx sby : Z)
  (cdef_index dir var edges bx by_ : Z) (skip : bool) (out : Z -> Z -> Z -> Z) (p : Z) : option (Z -> Z -> Z -> Z) :=
  let coeff_shift := f_bit_depth fi - 8 in
  let cdef_damping := f_damping fi in
  let cdef_pri_y_strength := f_y_str fi cdef_index / CDEF_SEC_STRENGTHS in
  let cdef_sec_y_strength := f_y_str fi cdef_index mod CDEF_SEC_STRENGTHS in
  let cdef_pri_uv_strength := f_uv_str fi cdef_index / CDEF_SEC_STRENGTHS in
  let cdef_sec_uv_strength := f_uv_str fi cdef_index mod CDEF_SEC_STRENGTHS in
  let cdef_sec_y_strength := if cdef_sec_y_strength =? 3 then cdef_sec_y_strength + 1 else cdef_sec_y_strength in
  let cdef_sec_uv_strength := if cdef_sec_uv_strength =? 3 then cdef_sec_uv_strength + 1 else cdef_sec_uv_strength in
  let input_xoffset := tile_x + Z.shiftl sbx (6 - p_xdec (input 0)) in
  let input_yoffset := tile_y + Z.shiftl sby (6 - p_ydec (input 0)) in
  let in_plane := input p in
  let xdec := p_xdec in_plane in
  let ydec := p_ydec in_plane in
  let xsize := Z.shiftr 8 xdec in
  let ysize := Z.shiftr 8 ydec in
  let in_x := Z.shiftr input_xoffset xdec + bx * xsize in
  let in_y := Z.shiftr input_yoffset ydec + by_ * ysize in
  let out_x := Z.shiftr tile_x xdec + Z.shiftl (Z.shiftr (Z.shiftl sbx 4 + 2 * bx) xdec) 2 in
  let out_y := Z.shiftr tile_y ydec + Z.shiftl (Z.shiftr (Z.shiftl sby 4 + 2 * by_) ydec) 2 in
  let ptr := in_y * p_stride in_plane + in_x in
  if negb skip then
    let local_damping := cdef_damping + coeff_shift in
    let '(local_pri, local_sec, local_damping, local_dir) :=
      if p =? 0 then
        (adjust_strength (Z.shiftl cdef_pri_y_strength coeff_shift) var,
         Z.shiftl cdef_sec_y_strength coeff_shift, local_damping,
         if negb (cdef_pri_y_strength =? 0) then dir else 0)
      else
        (Z.shiftl cdef_pri_uv_strength coeff_shift,
         Z.shiftl cdef_sec_uv_strength coeff_shift, local_damping - 1,
         if negb (cdef_pri_uv_strength =? 0)
         then (if negb (xdec =? ydec) then idx [7; 0; 2; 4; 5; 6; 6; 6] dir else dir)
         else 0) in
    (* the asserts of cdef.rs 525-544 *)
    if (in_x + xsize + (if have edges CDEF_HAVE_RIGHT then 2 else 0) <=? p_width in_plane)
       && (0 <=? in_x - (if have edges CDEF_HAVE_LEFT then 2 else 0))
       && (in_y + ysize + (if have edges CDEF_HAVE_BOTTOM then 2 else 0) <=? p_height in_plane)
       && (0 <=? in_y - (if have edges CDEF_HAVE_TOP then 2 else 0))
    then Some (put_block out p out_y out_x ysize xsize
      (cdef_filter_block junk (p_mem in_plane) ptr (p_stride in_plane) local_pri local_sec local_dir
         local_damping (f_bit_depth fi) xdec ydec edges))
    else None
  else Some (put_block out p out_y out_x ysize xsize (fun i j => px in_plane (in_y + i) (in_x + j))).

(* clearing a flag: edges &= !flag *)
Definition clear (edges flag : Z) : Z := Z.land edges (255 - flag).

(* cdef.rs 402-573 *)
Definition cdef_filter_superblock (fi : frame_inv) (junk : Z -> Z) (input : Z -> plane) (b : tile_blocks)
  (tile_x tile_y sbx sby cdef_index : Z) (dirs : Z -> Z -> Z * Z) (out : Z -> Z -> Z -> Z)
  : option (Z -> Z -> Z -> Z) :=
  let input_xoffset := tile_x + Z.shiftl sbx (6 - p_xdec (input 0)) in
  let input_yoffset := tile_y + Z.shiftl sby (6 - p_ydec (input 0)) in
  let input_xavail := p_width (input 0) - input_xoffset in
  let input_yavail := p_height (input 0) - input_yoffset in
  let have_top_p := if 0 <? sby + tile_y then CDEF_HAVE_TOP else 0 in
  let have_left_p := if 0 <? sbx + tile_x then CDEF_HAVE_LEFT else 0 in
  let edges := Z.lor have_top_p CDEF_HAVE_BOTTOM in
  do r <- ofold (fun st by_ =>
    let '(edges, out) := st in
    let edges := if Z.shiftr (usize input_yavail) 3 <=? by_ + 1 then clear edges CDEF_HAVE_BOTTOM else edges in
    let edges := clear edges CDEF_HAVE_LEFT in
    let edges := Z.lor edges have_left_p in
    let edges := Z.lor edges CDEF_HAVE_RIGHT in
    do st <- ofold (fun st bx =>
      let '(edges, out) := st in
      let edges := if Z.shiftr (usize input_xavail) 3 <=? bx + 1 then clear edges CDEF_HAVE_RIGHT else edges in
      let x := Z.shiftl sbx 4 + Z.shiftl bx 1 in
      let y := Z.shiftl sby 4 + Z.shiftl by_ 1 in
      do out <- (if (x <? b_cols b) && (y <? b_rows b) then
        do skip <- skip8 b sbx sby bx by_;
        let '(dir, var) := dirs bx by_ in
        ofold (filter_plane fi junk input tile_x tile_y sbx sby cdef_index dir var edges bx by_ skip)
          (zrange 0 (f_planes fi)) out
        else Some out);
      Some (Z.lor edges CDEF_HAVE_LEFT, out)) (zrange 0 8) (edges, out);
    let '(edges, out) := st in
    Some (Z.lor edges CDEF_HAVE_TOP, out)) (zrange 0 8) (edges, out);
  Some (snd r).

(* cdef.rs 597-625: [rect_w] and [rect_h] are the size of the output's luma rectangle *)
Definition cdef_filter_tile (fi : frame_inv) (junk : Z -> Z) (input : Z -> plane) (b : tile_blocks)
  (tile_x tile_y rect_w rect_h : Z) (out : Z -> Z -> Z -> Z) : option (Z -> Z -> Z -> Z) :=
  let fb_width := (rect_w + 63) / 64 in
  let fb_height := (rect_h + 63) / 64 in
  ofold (fun out fby => ofold (fun out fbx =>
    do cdef_index <- cdef_at b (Z.shiftl fby 4) (Z.shiftl fbx 4);
    do dirs <- cdef_analyze_superblock fi input b fbx fby;
    cdef_filter_superblock fi junk input b tile_x tile_y fbx fby cdef_index dirs out)
    (zrange 0 fb_width) out) (zrange 0 fb_height) out.
