(** Model of the availability tests for intra edges, src/recon_intra.rs, of
    [supersample_chroma_bsize], [get_intra_edges] and [has_tr] of src/partition.rs, and of the
    offsets that src/encoder.rs [write_tx_blocks] passes to them.

    A block size is the pair of its width and height in units of 4 samples.  The branches for
    128 wide blocks are left out: the encoder uses 64x64 superblocks (src/encoder.rs 233).
    [None] is a panic (table index out of range).  The edge buffer, which is stored
    backwards on the left, is modelled by three functions: above, left (from top to bottom)
    and corner. *)
From Verif Require Import Base.
Local Open Scope Z_scope.

(* src/recon_intra.rs 27-120 and 262-350 (by script): the tables, indexed by block size as in
   has_tr_tables and has_bl_tables *)
Definition has_tr_table (bw bh : Z) : list Z :=
  match bw, bh with
  | 1, 1 => [255; 255; 255; 255; 85; 85; 85; 85; 119; 119; 119; 119; 85; 85; 85; 85; 127; 127; 127; 127; 85; 85; 85; 85; 119; 119; 119; 119; 85; 85; 85; 85; 255; 127; 255; 127; 85; 85; 85; 85; 119; 119; 119; 119; 85; 85; 85; 85; 127; 127; 127; 127; 85; 85; 85; 85; 119; 119; 119; 119; 85; 85; 85; 85; 255; 255; 255; 127; 85; 85; 85; 85; 119; 119; 119; 119; 85; 85; 85; 85; 127; 127; 127; 127; 85; 85; 85; 85; 119; 119; 119; 119; 85; 85; 85; 85; 255; 127; 255; 127; 85; 85; 85; 85; 119; 119; 119; 119; 85; 85; 85; 85; 127; 127; 127; 127; 85; 85; 85; 85; 119; 119; 119; 119; 85; 85; 85; 85]
  | 1, 2 => [255; 255; 255; 255; 119; 119; 119; 119; 127; 127; 127; 127; 119; 119; 119; 119; 255; 127; 255; 127; 119; 119; 119; 119; 127; 127; 127; 127; 119; 119; 119; 119; 255; 255; 255; 127; 119; 119; 119; 119; 127; 127; 127; 127; 119; 119; 119; 119; 255; 127; 255; 127; 119; 119; 119; 119; 127; 127; 127; 127; 119; 119; 119; 119]
  | 2, 1 => [255; 255; 0; 0; 85; 85; 0; 0; 119; 119; 0; 0; 85; 85; 0; 0; 127; 127; 0; 0; 85; 85; 0; 0; 119; 119; 0; 0; 85; 85; 0; 0; 255; 127; 0; 0; 85; 85; 0; 0; 119; 119; 0; 0; 85; 85; 0; 0; 127; 127; 0; 0; 85; 85; 0; 0; 119; 119; 0; 0; 85; 85; 0; 0]
  | 2, 2 => [255; 255; 85; 85; 119; 119; 85; 85; 127; 127; 85; 85; 119; 119; 85; 85; 255; 127; 85; 85; 119; 119; 85; 85; 127; 127; 85; 85; 119; 119; 85; 85]
  | 2, 4 => [255; 255; 119; 119; 127; 127; 119; 119; 255; 127; 119; 119; 127; 127; 119; 119]
  | 4, 2 => [255; 0; 85; 0; 119; 0; 85; 0; 127; 0; 85; 0; 119; 0; 85; 0]
  | 4, 4 => [255; 85; 119; 85; 127; 85; 119; 85]
  | 4, 8 => [255; 119; 127; 119]
  | 8, 4 => [15; 5; 7; 5]
  | 8, 8 => [95; 87]
  | 8, 16 => [127]
  | 16, 8 => [19]
  | 16, 16 => [7]
  | 16, 32 => [3]
  | 32, 16 => [1]
  | 32, 32 => [1]
  | 1, 4 => [255; 255; 255; 255; 127; 127; 127; 127; 255; 127; 255; 127; 127; 127; 127; 127; 255; 255; 255; 127; 127; 127; 127; 127; 255; 127; 255; 127; 127; 127; 127; 127]
  | 4, 1 => [255; 0; 0; 0; 85; 0; 0; 0; 119; 0; 0; 0; 85; 0; 0; 0; 127; 0; 0; 0; 85; 0; 0; 0; 119; 0; 0; 0; 85; 0; 0; 0]
  | 2, 8 => [255; 255; 127; 127; 255; 127; 127; 127]
  | 8, 2 => [15; 0; 5; 0; 7; 0; 5; 0]
  | 4, 16 => [255; 127]
  | 16, 4 => [3; 1]
  | _, _ => []
  end.
Definition has_bl_table (bw bh : Z) : list Z :=
  match bw, bh with
  | 1, 1 => [84; 85; 85; 85; 16; 17; 17; 17; 84; 85; 85; 85; 0; 1; 1; 1; 84; 85; 85; 85; 16; 17; 17; 17; 84; 85; 85; 85; 0; 0; 1; 0; 84; 85; 85; 85; 16; 17; 17; 17; 84; 85; 85; 85; 0; 1; 1; 1; 84; 85; 85; 85; 16; 17; 17; 17; 84; 85; 85; 85; 0; 0; 0; 0; 84; 85; 85; 85; 16; 17; 17; 17; 84; 85; 85; 85; 0; 1; 1; 1; 84; 85; 85; 85; 16; 17; 17; 17; 84; 85; 85; 85; 0; 0; 1; 0; 84; 85; 85; 85; 16; 17; 17; 17; 84; 85; 85; 85; 0; 1; 1; 1; 84; 85; 85; 85; 16; 17; 17; 17; 84; 85; 85; 85; 0; 0; 0; 0]
  | 1, 2 => [16; 17; 17; 17; 0; 1; 1; 1; 16; 17; 17; 17; 0; 0; 1; 0; 16; 17; 17; 17; 0; 1; 1; 1; 16; 17; 17; 17; 0; 0; 0; 0; 16; 17; 17; 17; 0; 1; 1; 1; 16; 17; 17; 17; 0; 0; 1; 0; 16; 17; 17; 17; 0; 1; 1; 1; 16; 17; 17; 17; 0; 0; 0; 0]
  | 2, 1 => [254; 255; 84; 85; 254; 255; 16; 17; 254; 255; 84; 85; 254; 255; 0; 1; 254; 255; 84; 85; 254; 255; 16; 17; 254; 255; 84; 85; 254; 255; 0; 0; 254; 255; 84; 85; 254; 255; 16; 17; 254; 255; 84; 85; 254; 255; 0; 1; 254; 255; 84; 85; 254; 255; 16; 17; 254; 255; 84; 85; 254; 255; 0; 0]
  | 2, 2 => [84; 85; 16; 17; 84; 85; 0; 1; 84; 85; 16; 17; 84; 85; 0; 0; 84; 85; 16; 17; 84; 85; 0; 1; 84; 85; 16; 17; 84; 85; 0; 0]
  | 2, 4 => [16; 17; 0; 1; 16; 17; 0; 0; 16; 17; 0; 1; 16; 17; 0; 0]
  | 4, 2 => [254; 84; 254; 16; 254; 84; 254; 0; 254; 84; 254; 16; 254; 84; 254; 0]
  | 4, 4 => [84; 16; 84; 0; 84; 16; 84; 0]
  | 4, 8 => [16; 0; 16; 0]
  | 8, 4 => [78; 14; 78; 14]
  | 8, 8 => [4; 4]
  | 8, 16 => [0]
  | 16, 8 => [34]
  | 16, 16 => [0]
  | 16, 32 => [0]
  | 32, 16 => [0]
  | 32, 32 => [0]
  | 1, 4 => [0; 1; 1; 1; 0; 0; 1; 0; 0; 1; 1; 1; 0; 0; 0; 0; 0; 1; 1; 1; 0; 0; 1; 0; 0; 1; 1; 1; 0; 0; 0; 0]
  | 4, 1 => [254; 254; 254; 84; 254; 254; 254; 16; 254; 254; 254; 84; 254; 254; 254; 0; 254; 254; 254; 84; 254; 254; 254; 16; 254; 254; 254; 84; 254; 254; 254; 0]
  | 2, 8 => [0; 1; 0; 0; 0; 1; 0; 0]
  | 8, 2 => [238; 78; 238; 14; 238; 78; 238; 14]
  | 4, 16 => [0; 0]
  | 16, 4 => [42; 42]
  | _, _ => []
  end.

(* (table[idx1] >> idx2) & 1, src/recon_intra.rs 233-239 and 442-448 *)
Definition table_bit (tab : list Z) (i : Z) : option bool :=
  match nth_error tab (Z.to_nat (i / 8)) with
  | Some v => Some (negb (Z.land (Z.shiftr v (i mod 8)) 1 =? 0))
  | None => None
  end.

(* src/recon_intra.rs 171-241 *)
Definition has_top_right (bw bh mi_row mi_col : Z) (top_available right_available : bool)
    (tx_w row_off col_off ss_x : Z) : option bool :=
  if negb top_available || negb right_available then Some false
  else
    let plane_bw_unit := Z.max (Z.shiftr bw ss_x) 1 in
    if 0 <? row_off then Some (col_off + tx_w <? plane_bw_unit)
    else if col_off + tx_w <? plane_bw_unit then Some true
    else
      let bw_log2 := Z.log2 bw in
      let bh_log2 := Z.log2 bh in
      let blk_row_in_sb := Z.shiftr (Z.land mi_row 15) bh_log2 in
      let blk_col_in_sb := Z.shiftr (Z.land mi_col 15) bw_log2 in
      if blk_row_in_sb =? 0 then Some true
      else if 16 <=? Z.shiftl (blk_col_in_sb + 1) bw_log2 then Some false
      else table_bit (has_tr_table bw bh) (Z.shiftl blk_row_in_sb (5 - bw_log2) + blk_col_in_sb).

(* src/recon_intra.rs 372-451 *)
Definition has_bottom_left (bw bh mi_row mi_col : Z) (bottom_available left_available : bool)
    (tx_h row_off col_off ss_y : Z) : option bool :=
  if negb bottom_available || negb left_available then Some false
  else if 0 <? col_off then Some false
  else
    let plane_bh_unit := Z.max (Z.shiftr bh ss_y) 1 in
    if row_off + tx_h <? plane_bh_unit then Some true
    else
      let bw_log2 := Z.log2 bw in
      let bh_log2 := Z.log2 bh in
      let blk_row_in_sb := Z.shiftr (Z.land mi_row 15) bh_log2 in
      let blk_col_in_sb := Z.shiftr (Z.land mi_col 15) bw_log2 in
      if blk_col_in_sb =? 0 then
        let blk_start_row_off := Z.shiftr (Z.shiftl blk_row_in_sb bh_log2) ss_y in
        Some (blk_start_row_off + row_off + tx_h <? Z.shiftr 16 ss_y)
      else if 16 <=? Z.shiftl (blk_row_in_sb + 1) bh_log2 then Some false
      else table_bit (has_bl_table bw bh) (Z.shiftl blk_row_in_sb (5 - bw_log2) + blk_col_in_sb).

(* src/partition.rs 559-598 *)
Definition supersample_chroma_bsize (bw bh ss_x ss_y : Z) : Z * Z :=
  match bw, bh with
  | 1, 1 => match ss_x, ss_y with 1, 1 => (2, 2) | 1, 0 => (2, 1) | 0, 1 => (1, 2) | _, _ => (bw, bh) end
  | 1, 2 => match ss_x, ss_y with 1, 1 => (2, 2) | 1, 0 => (2, 2) | 0, 1 => (1, 2) | _, _ => (bw, bh) end
  | 2, 1 => match ss_x, ss_y with 1, 1 => (2, 2) | 1, 0 => (2, 1) | 0, 1 => (2, 2) | _, _ => (bw, bh) end
  | 1, 4 => match ss_x, ss_y with 1, 1 => (2, 4) | 1, 0 => (2, 4) | 0, 1 => (1, 4) | _, _ => (bw, bh) end
  | 4, 1 => match ss_x, ss_y with 1, 1 => (4, 2) | 1, 0 => (4, 1) | 0, 1 => (4, 2) | _, _ => (bw, bh) end
  | _, _ => (bw, bh)
  end.

(* src/partition.rs 900-955: the test for the motion vector candidates; the loop
   doubles bs at most four times *)
Fixpoint has_tr_loop (fuel : nat) (mask_row mask_col bs : Z) (tr : bool) : bool :=
  match fuel with
  | O => tr
  | S f =>
      if bs <? 16 then
        if negb (Z.land mask_col bs =? 0) then
          if negb (Z.land mask_col (2 * bs) =? 0) && negb (Z.land mask_row (2 * bs) =? 0) then false
          else has_tr_loop f mask_row mask_col (Z.shiftl bs 1) tr
        else tr
      else tr
  end.
Definition has_tr (y x bw bh : Z) : bool :=
  let mask_row := Z.land y 15 in
  let mask_col := Z.land x 15 in
  let bs := Z.max bw bh in
  if 16 <? bs then false
  else
    let tr := negb (negb (Z.land mask_row bs =? 0) && negb (Z.land mask_col bs =? 0)) in
    let tr := has_tr_loop 5 mask_row mask_col bs tr in
    let tr := if (bw <? bh) && (Z.land x bw =? 0) then true else tr in
    if (bh <? bw) && negb (Z.land y bh =? 0) then false else tr.

(** ** [get_intra_edges], src/partition.rs 639-898 *)
(* src/predict.rs 72-92: the intra modes; 138-150 and 262-264 *)
Inductive pmode := DC_PRED | V_PRED | H_PRED | D45_PRED | D135_PRED | D113_PRED | D157_PRED | D203_PRED | D67_PRED
  | SMOOTH_PRED | SMOOTH_V_PRED | SMOOTH_H_PRED | PAETH_PRED | UV_CFL_PRED.
Definition intra_mode_to_angle (m : pmode) : Z :=
  match m with
  | V_PRED => 90 | H_PRED => 180 | D45_PRED => 45 | D135_PRED => 135 | D113_PRED => 113 | D157_PRED => 157
  | D203_PRED => 203 | D67_PRED => 67 | _ => 0
  end.
Definition is_directional (m : pmode) : bool :=
  match m with DC_PRED | SMOOTH_PRED | SMOOTH_V_PRED | SMOOTH_H_PRED | PAETH_PRED | UV_CFL_PRED => false | _ => true end.
Definition is_dc_or_cfl (m : pmode) : bool := match m with DC_PRED | UV_CFL_PRED => true | _ => false end.
(* 671-678 *)
Definition edge_mode (m : pmode) (x y : Z) : pmode :=
  match m with
  | PAETH_PRED => if x =? 0 then (if y =? 0 then DC_PRED else V_PRED) else if y =? 0 then H_PRED else PAETH_PRED
  | _ => m
  end.
(* 680-703: which parts are filled in for the mode *)
Record needs := mkNeeds { n_left : bool; n_topleft : bool; n_top : bool; n_topright : bool; n_bottomleft : bool; n_filter : bool }.
Definition edge_needs (mode : pmode) (angle_delta x y : Z) (enable_intra_edge_filter : bool) : needs :=
  let m := edge_mode mode x y in
  let p := intra_mode_to_angle m + angle_delta * 3 in
  let dc := is_dc_or_cfl m in
  mkNeeds ((negb dc || negb (x =? 0)) || ((90 <? p) && negb (p =? 180)))
    (match m with PAETH_PRED => true | _ => is_directional m && negb (p =? 90) && negb (p =? 180) end)
    ((negb dc || negb (y =? 0)) || (negb (p =? 90) && (p <? 180)))
    (is_directional m && (p <? 90))
    (is_directional m && (180 <? p))
    (enable_intra_edge_filter && (90 <? p) && (p <? 180)).

(* the filled parts: [e_above i] for i < e_na, [e_left i] for i < e_nl *)
Record edges := mkEdges { e_nl : Z; e_left : Z -> Z; e_corner : Z; e_na : Z; e_above : Z -> Z }.
Section Edges.
Variables (dst : Z -> Z -> Z) (rect_w rect_h bit_depth : Z).   (* the plane of the tile; 705-708 *)
Variables (bo_y bo_x bw bh : Z) (ss_x ss_y : Z).               (* the block *)
Variables (by_ bx : Z) (po_y po_x : Z) (tx_w tx_h : Z).        (* the transform block, in samples; by, bx count blocks *)
Definition base : Z := Z.shiftl 128 (bit_depth - 8).
(* 710-732 *)
Definition left_edge (i : Z) : Z :=
  let txh := if rect_h <? po_y + tx_h then rect_h - po_y else tx_h in
  if negb (po_x =? 0) then
    if i <? txh then dst (po_y + i) (po_x - 1) else dst (po_y + txh - 1) (po_x - 1)
  else if negb (po_y =? 0) then dst (po_y - 1) 0 else base + 1.
(* 734-761 *)
Definition top_edge (i : Z) : Z :=
  let txw := if rect_w <? po_x + tx_w then rect_w - po_x else tx_w in
  if negb (po_y =? 0) then
    if i <? txw then dst (po_y - 1) (po_x + i) else dst (po_y - 1) (po_x + txw - 1)
  else if negb (po_x =? 0) then dst 0 (po_x - 1) else base - 1.
(* 763-783 *)
Definition by4 : Z := by_ * Z.shiftr tx_h 2.
Definition bx4 : Z := bx * Z.shiftr tx_w 2.
Definition have_top : bool := negb (by4 =? 0) || (if negb (ss_y =? 0) then 1 <? bo_y else 0 <? bo_y).
Definition have_left : bool := negb (bx4 =? 0) || (if negb (ss_x =? 0) then 1 <? bo_x else 0 <? bo_x).
Definition right_available : bool := po_x + tx_w <? rect_w.
Definition bottom_available : bool := po_y + tx_h <? rect_h.
(* 788-807 and 842-859 *)
Definition topright_avail : option Z :=
  let '(sw, sh) := supersample_chroma_bsize bw bh ss_x ss_y in
  if negb (po_y =? 0) then
    match has_top_right sw sh bo_y bo_x have_top right_available (Z.shiftr tx_w 2) by4 bx4 ss_x with
    | Some true => Some (Z.min tx_w (rect_w - po_x - tx_w))
    | Some false => Some 0
    | None => None
    end
  else Some 0.
Definition bottomleft_avail : option Z :=
  let '(sw, sh) := supersample_chroma_bsize bw bh ss_x ss_y in
  if negb (po_x =? 0) then
    match has_bottom_left sw sh bo_y bo_x bottom_available have_left (Z.shiftr tx_h 2) by4 bx4 ss_y with
    | Some true => Some (Z.min tx_h (rect_h - po_y - tx_h))
    | Some false => Some 0
    | None => None
    end
  else Some 0.
(* 808-827: num samples are copied, the last one is repeated up to tx_h *)
Definition top_right_edge (num i : Z) : Z :=
  if i <? tx_w then top_edge i
  else if i <? tx_w + num then dst (po_y - 1) (po_x + i)
  else if num =? 0 then top_edge (tx_w - 1) else dst (po_y - 1) (po_x + tx_w + num - 1).
(* 860-877 *)
Definition bottom_left_edge (num i : Z) : Z :=
  if i <? tx_h then left_edge i
  else if i <? tx_h + num then dst (po_y + i) (po_x - 1)
  else if num =? 0 then left_edge (tx_h - 1) else dst (po_y + tx_h + num - 1) (po_x - 1).
(* 884-901 *)
Definition corner (nd : needs) (left0 above0 : Z) : Z :=
  if n_topleft nd then
    let tl := if (po_x =? 0) && (po_y =? 0) then base
      else if po_y =? 0 then dst 0 (po_x - 1)
      else if po_x =? 0 then dst (po_y - 1) 0
      else dst (po_y - 1) (po_x - 1) in
    if n_filter nd && (24 <=? tx_w + tx_h) then Z.shiftr (left0 * 5 + tl * 6 + above0 * 5 + 8) 4 else tl
  else base.
Definition get_intra_edges (nd : needs) : option edges :=
  match (if n_topright nd then topright_avail else Some 0), (if n_bottomleft nd then bottomleft_avail else Some 0) with
  | Some na, Some nb =>
      Some (mkEdges ((if n_left nd then tx_h else 0) + (if n_bottomleft nd then tx_w else 0)) (bottom_left_edge nb)
        (corner nd (left_edge 0) (top_edge 0))
        ((if n_top nd then tx_w else 0) + (if n_topright nd then tx_h else 0)) (top_right_edge na))
  | _, _ => None
  end.
End Edges.
