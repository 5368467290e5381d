(** Model of the tiling computation and of the tile part of the frame header. *)
From Verif Require Import Base Bits.

(** `align_power_of_two(n)` and `align_power_of_two_and_shift(n)` of the
    v_frame crate (re-exported by /repo/src/util/mod.rs) *)
Definition align (n x : Z) : Z := (x + 2 ^ n - 1) / 2 ^ n * 2 ^ n.
Definition align_shift (n x : Z) : Z := (x + 2 ^ n - 1) / 2 ^ n.

(** `usize::div_ceil` *)
Definition div_ceil (a b : Z) : Z := (a + b - 1) / b.

(** /repo/src/tiling/tiler.rs:21-24 and the superblock size
    /repo/src/encoder.rs:403-409 with use_128x128_superblock = false
    (encoder.rs:233), the only value in the program *)
Definition MAX_TILE_WIDTH : Z := 4096.
Definition MAX_TILE_AREA : Z := 4096 * 2304.
Definition MAX_TILE_COLS : Z := 64.
Definition MAX_TILE_ROWS : Z := 64.
Definition sb_log2 : Z := 6.

(** [tile_log2] (tiler.rs:156-162).  `checked_shl` only checks the shift
    amount; the shifted value itself wraps at 64 bits. *)
Fixpoint tile_log2_loop (fuel : nat) (blk target k : Z) : option Z :=
  match fuel with
  | O => None
  | S fuel =>
      if 64 <=? k then None
      else if (blk * 2 ^ k) mod 2 ^ 64 <? target then tile_log2_loop fuel blk target (k + 1)
      else Some k
  end.
Definition tile_log2 (blk target : Z) : option Z := tile_log2_loop 65 blk target 0.

(** [TilingInfo] (tiler.rs:35-50), without the constant sb_size_log2 *)
Record tiling := {
  t_fw : Z; t_fh : Z;              (* frame_width, frame_height *)
  t_tw : Z; t_th : Z;              (* tile_width_sb, tile_height_sb *)
  t_cols : Z; t_rows : Z;
  t_cols_log2 : Z; t_rows_log2 : Z;
  t_min_cols_log2 : Z; t_max_cols_log2 : Z;
  t_min_rows_log2 : Z; t_max_rows_log2 : Z;
  t_min_tiles_log2 : Z
}.

(** `x.clamp(lo, hi)`: panics if lo > hi *)
Definition clamp (lo hi x : Z) : option Z :=
  if hi <? lo then None else Some (if x <? lo then lo else if hi <? x then hi else x).

Definition bindo {A B} (x : option A) (f : A -> option B) : option B :=
  match x with None => None | Some a => f a end.
Notation "'do' x <- p ;; q" := (bindo p (fun x => q)) (at level 60, x name, right associativity).

(** [TilingInfo::from_target_tiles] (tiler.rs:56-150).  [rl] is the value of
    the floating-point expression of lines 89-92 (see [rate_limit_log2]);
    [tc], [tr] are the requested log2 counts. *)
Definition from_target_tiles (w h rl tc tr : Z) (is_422 : bool) : option tiling :=
  let fw := align 3 w in
  let fh := align 3 h in
  let sb_cols := align_shift sb_log2 fw in
  let sb_rows := align_shift sb_log2 fh in
  let max_tile_width_sb := MAX_TILE_WIDTH / 2 ^ sb_log2 in
  let max_tile_area_sb := MAX_TILE_AREA / 2 ^ (2 * sb_log2) in
  do min_cols <- tile_log2 max_tile_width_sb sb_cols ;;
  do max_cols <- tile_log2 1 (Z.min sb_cols MAX_TILE_COLS) ;;
  do max_rows <- tile_log2 1 (Z.min sb_rows MAX_TILE_ROWS) ;;
  do area <- tile_log2 max_tile_area_sb (sb_cols * sb_rows) ;;
  let min_tiles := Z.max min_cols area in
  let min_tiles_rl := Z.max min_tiles rl in
  do cols_log2 <- clamp min_cols max_cols tc ;;
  let tw_pre := align_shift cols_log2 sb_cols in
  let tw := if is_422 then (tw_pre + 1) / 2 * 2 else tw_pre in
  let cols := div_ceil sb_cols tw in
  do cols_log2 <- tile_log2 1 cols ;;
  if cols_log2 <? min_cols then None else
  let min_rows := Z.max 0 (min_tiles - cols_log2) in
  let min_rows_rl := Z.max 0 (min_tiles_rl - cols_log2) in
  do rows_log2 <- clamp min_rows_rl max_rows (Z.max tr min_rows) ;;
  let th := align_shift rows_log2 sb_rows in
  let rows := div_ceil sb_rows th in
  Some {| t_fw := fw; t_fh := fh; t_tw := tw; t_th := th; t_cols := cols; t_rows := rows;
          t_cols_log2 := cols_log2; t_rows_log2 := rows_log2;
          t_min_cols_log2 := min_cols; t_max_cols_log2 := max_cols;
          t_min_rows_log2 := min_rows; t_max_rows_log2 := max_rows;
          t_min_tiles_log2 := min_tiles |}.

(** tiler.rs:89-92 with exact arithmetic instead of f64:
    ceil(log2(ceil(w * h * (den / num) / (4096 * 2176 * 60 * 1.1)))).
    MAX_TILE_RATE = 588251136. *)
Definition MAX_TILE_RATE : Z := 4096 * 2176 * 66.
Definition rate_limit_log2 (w h num den : Z) : Z :=
  Z.log2_up (div_ceil (align 3 w * align 3 h * den) (num * MAX_TILE_RATE)).

(** The search loop of `Sequence::new` (/repo/src/encoder.rs:249-280) for
    config.tiles > 0.  [rl] as above; [rq], [cq] are the requested logs.
    Out of fuel is [None], like a panic. *)
Fixpoint tiles_search (fuel : nat) (w h rl tiles : Z) (is_422 : bool) (rq cq : Z) (t : tiling) : option tiling :=
  match fuel with
  | O => None
  | S fuel =>
      if (rq <? t_max_rows_log2 t) || (cq <? t_max_cols_log2 t) then
        do t <- from_target_tiles w h rl cq rq is_422 ;;
        if tiles <=? t_rows t * t_cols t then Some t
        else if ((t_tw t <=? t_th t) && (t_rows_log2 t <? t_max_rows_log2 t)) || (t_max_cols_log2 t <=? cq)
        then tiles_search fuel w h rl tiles is_422 (rq + 1) cq t
        else tiles_search fuel w h rl tiles is_422 rq (cq + 1) t
      else Some t
  end.

(** encoder.rs:238-280 *)
Definition sequence_tiling (w h rl tile_cols tile_rows tiles : Z) (is_422 : bool) : option tiling :=
  do tc <- tile_log2 1 tile_cols ;;
  do tr <- tile_log2 1 tile_rows ;;
  do t <- from_target_tiles w h rl tc tr is_422 ;;
  if 0 <? tiles then tiles_search 64 w h rl tiles is_422 0 0 t else Some t.

(** ** Tile views *)

(** One region of a plane or of a block grid *)
Record rect := { r_x : Z; r_y : Z; r_w : Z; r_h : Z }.

(** The item number [i] produced by [TileContextIterMut::next]
    (tiler.rs:200-256).  Unsigned subtraction that would go below zero is
    [None].  The first rectangle is the tile (tile_state.rs:199-206), the
    second the region of the reconstruction planes that the tile may write
    (tile_state.rs:141-149), the third the block region (tiler.rs:240-248;
    fb.cols and fb.rows are encoder.rs w_in_b, h_in_b: twice the size in 8x8
    units). *)
Record tile_view := { v_sbx : Z; v_sby : Z; v_rect : rect; v_rec : rect; v_blocks : rect }.

Definition tile_view_at (t : tiling) (i : Z) : option tile_view :=
  if i <? t_rows t * t_cols t then
    let tile_col := i mod t_cols t in
    let tile_row := i / t_cols t in
    let sx := tile_col * t_tw t in
    let sy := tile_row * t_th t in
    let x := sx * 2 ^ sb_log2 in
    let y := sy * 2 ^ sb_log2 in
    let tile_width := t_tw t * 2 ^ sb_log2 in
    let tile_height := t_th t * 2 ^ sb_log2 in
    if (t_fw t <? x) || (t_fh t <? y) then None else
    let width := Z.min tile_width (t_fw t - x) in
    let height := Z.min tile_height (t_fh t - y) in
    let tile_width_mi := t_tw t * 2 ^ (sb_log2 - 2) in
    let tile_height_mi := t_th t * 2 ^ (sb_log2 - 2) in
    let xb := tile_col * tile_width_mi in
    let yb := tile_row * tile_height_mi in
    let fb_cols := 2 * align_shift 3 (t_fw t) in
    let fb_rows := 2 * align_shift 3 (t_fh t) in
    if (fb_cols <? xb) || (fb_rows <? yb) then None else
    Some {| v_sbx := sx; v_sby := sy;
            v_rect := {| r_x := x; r_y := y; r_w := width; r_h := height |};
            v_rec := {| r_x := x; r_y := y; r_w := align sb_log2 width; r_h := align sb_log2 height |};
            v_blocks := {| r_x := xb; r_y := yb; r_w := Z.min tile_width_mi (fb_cols - xb);
                           r_h := Z.min tile_height_mi (fb_rows - yb) |} |}
  else None.

(** [TileRect::decimated] (/repo/src/tiling/tile.rs:26-36) *)
Definition decimated (xdec ydec : Z) (r : rect) : rect :=
  {| r_x := r_x r / 2 ^ xdec; r_y := r_y r / 2 ^ ydec; r_w := r_w r / 2 ^ xdec; r_h := r_h r / 2 ^ ydec |}.

(** ** Restoration units *)

(** [get_units_region] (/repo/src/tiling/tile_restoration_state.rs:358-391)
    in one dimension: position [sb] and size [sb_n] of a tile in superblocks,
    [shift] superblocks per unit (log2), [rs] units in the frame.  The
    debug_asserts are returned as a boolean. *)
Definition units_region (shift rs sb sb_n : Z) : Z * Z * bool :=
  let ux := sb / 2 ^ shift in
  let un := (sb_n + 2 ^ shift - 1) / 2 ^ shift in
  let ok := (sb mod 2 ^ shift =? 0) && (ux <? rs + 1) && (ux + un <=? rs + 1) in
  let ux' := Z.min ux rs in
  (ux', Z.min un (rs - ux'), ok).

(** ** Tile info in the frame header *)

(** [BCodeWriter::write_quniform] (/repo/src/ec.rs:864-880) on u16 values.
    `1 << l` overflows u16 when l = 16. *)
Definition wb_quniform (n v : Z) : wres :=
  if 1 <? n then
    let l := Z.log2 n + 1 in
    if 16 <=? l then None else
    let m := 2 ^ l - n in
    if v <? m then w_bits (l - 1) v
    else
      if 2 ^ 16 <=? m + (v - m) / 2 then None else
      w_bits (l - 1) (m + (v - m) / 2) >>> w_bits 1 ((v - m) mod 2)
  else w_ret.

(** The explicit column/row loops (/repo/src/header.rs:700-725): [size] the
    configured tile size, [total] the frame size, [limit] the largest size
    that may be coded; returns also the largest size used.  The results of
    `write_quniform` are dropped. *)
Fixpoint explicit_sizes (n : nat) (limit size total sofar : Z) : wres :=
  match n with
  | O => w_ret
  | S n =>
      let max := Z.min limit (total - sofar) in
      let this := Z.min size (total - sofar) in
      if (total <? sofar) || (this <? 1) then None else
      w_ign (wb_quniform (u16 max) (u16 (this - 1))) >>> explicit_sizes n limit size total (sofar + this)
  end.
Fixpoint widest_tile (n : nat) (size total sofar acc : Z) : Z :=
  match n with
  | O => acc
  | S n => let this := Z.min size (total - sofar) in widest_tile n size total (sofar + this) (Z.max acc this)
  end.

(** unary part of the uniform syntax: [ones] ones and a zero if not at the maximum *)
Definition w_increments (n lo hi : Z) : wres :=
  if n <? lo then None else
  Some (repeat true (Z.to_nat (n - lo)) ++ (if n <? hi then [false] else []), true).

(** header.rs:662-736.  [sb_w], [sb_h]: fi.sb_width, fi.sb_height;
    [ctx_id]: fs.context_update_tile_id; [tsb]: fs.max_tile_size_bytes. *)
Definition w_tile_info (t : tiling) (sb_w sb_h ctx_id tsb : Z) : wres :=
  (if (align_shift (t_cols_log2 t) sb_w =? t_tw t) && (align_shift (t_rows_log2 t) sb_h =? t_th t) then
     w_bit true >>>
     w_increments (t_cols_log2 t) (t_min_cols_log2 t) (t_max_cols_log2 t) >>>
     w_increments (t_rows_log2 t) (t_min_rows_log2 t) (t_max_rows_log2 t)
   else
     w_bit false >>>
     explicit_sizes (Z.to_nat (t_cols t)) (MAX_TILE_WIDTH / 2 ^ sb_log2) (t_tw t) sb_w 0 >>>
     let widest := widest_tile (Z.to_nat (t_cols t)) (t_tw t) sb_w 0 0 in
     let max_area := if 0 <? t_min_tiles_log2 t then (sb_h * sb_w) / 2 ^ (t_min_tiles_log2 t + 1) else sb_h * sb_w in
     if widest =? 0 then None else
     let max_h := Z.max (max_area / widest) 1 in
     explicit_sizes (Z.to_nat (t_rows t)) max_h (t_th t) sb_h 0) >>>
  let tiles_log2 := t_cols_log2 t + t_rows_log2 t in
  w_if (0 <? tiles_log2) (w_bits tiles_log2 ctx_id >>> w_bits 2 (tsb - 1)).
