(** Model of the writing of is_inter and of the reference frames of a block in an inter
    frame: write_is_inter, intra_inter_context, fill_neighbours_ref_counts and the contexts
    (/repo/src/context/block_unit.rs:410-440, 1444-1653, 1775-1781), write_ref_frames
    (/repo/src/context/frame_header.rs:49-152), called in encoder.rs:1988-1992.

    Simplifications: a block of the tile is its is_inter() (mode >= NEARESTMV) and its two
    reference frames; tables are named as in the specification. *)
From Verif Require Import Sym.
Open Scope string_scope.
Open Scope Z_scope.
Open Scope list_scope.

(** partition.rs:30-41: INTRA_FRAME 0, LAST 1, LAST2 2, LAST3 3, GOLDEN 4, BWDREF 5, ALTREF2 6, ALTREF 7, NONE 8 *)
Record blk := mkB { is_inter : bool; rf0 : Z; rf1 : Z }.
(** block_unit.rs:189-191: has_second_ref *)
Definition has_second_ref (b : blk) : bool := negb (rf1 b =? 0) && negb (rf1 b =? 8).
(** partition.rs:65-67: is_bwd_ref, true also of NONE_FRAME *)
Definition is_bwd_ref (r : Z) : bool := 5 <=? r.

Section Ctx.
(* above_of and left_of, absent at the edge of the tile (bo.y > 0, bo.x > 0) *)
Variables ab lf : option blk.

(** block_unit.rs:410-440: intra_inter_context *)
Definition intra_inter_context : Z :=
  match ab, lf with
  | Some a, Some l =>
      let above_intra := negb (is_inter a) in let left_intra := negb (is_inter l) in
      if above_intra && left_intra then 3 else if above_intra || left_intra then 1 else 0
  | Some a, None => if is_inter a then 0 else 2
  | None, Some l => if is_inter l then 0 else 2
  | None, None => 0
  end.

(** block_unit.rs:1444-1467: fill_neighbours_ref_counts; the count at index i of what one
    neighbour adds.  to_index (partition.rs:49-59) is the reference minus one. *)
Definition counts_of (n : option blk) (i : Z) : Z :=
  match n with
  | Some b =>
      if is_inter b then
        (if rf0 b - 1 =? i then 1 else 0) +
        (if has_second_ref b then (if rf1 b - 1 =? i then 1 else 0) else 0)
      else 0
  | None => 0
  end.
Definition ref_counts (i : Z) : Z := counts_of ab i + counts_of lf i.
(** block_unit.rs:1470-1478: ref_count_ctx *)
Definition ref_count_ctx (c0 c1 : Z) : Z := if c0 <? c1 then 0 else if c0 =? c1 then 1 else 2.
(** frame_header.rs:49-62: get_ref_frame_ctx_b0 *)
Definition get_ref_frame_ctx_b0 : Z :=
  ref_count_ctx (ref_counts 0 + ref_counts 1 + ref_counts 2 + ref_counts 3) (ref_counts 4 + ref_counts 5 + ref_counts 6).
(** block_unit.rs:1481-1531 *)
Definition get_pred_ctx_brfarf2_or_arf : Z := ref_count_ctx (ref_counts 4 + ref_counts 5) (ref_counts 6).
Definition get_pred_ctx_ll2_or_l3gld : Z := ref_count_ctx (ref_counts 0 + ref_counts 1) (ref_counts 2 + ref_counts 3).
Definition get_pred_ctx_last_or_last2 : Z := ref_count_ctx (ref_counts 0) (ref_counts 1).
Definition get_pred_ctx_last3_or_gold : Z := ref_count_ctx (ref_counts 2) (ref_counts 3).
Definition get_pred_ctx_brf_or_arf2 : Z := ref_count_ctx (ref_counts 4) (ref_counts 5).

Definition refs_of (n : option blk) : Z * Z := match n with Some b => (rf0 b, rf1 b) | None => (0, 8) end.
Definition avail (n : option blk) : bool := match n with Some _ => true | None => false end.
(** block_unit.rs:1533-1582: get_comp_mode_ctx *)
Definition get_comp_mode_ctx : Z :=
  let (left0, left1) := refs_of lf in
  let (above0, above1) := refs_of ab in
  let left_single := left1 =? 8 in let above_single := above1 =? 8 in
  let left_intra := left0 =? 0 in let above_intra := above0 =? 0 in
  let left_backward := is_bwd_ref left0 in let above_backward := is_bwd_ref above0 in
  if avail lf && avail ab then
    if above_single && left_single then Z.b2z (xorb above_backward left_backward)
    else if above_single then 2 + Z.b2z (above_backward || above_intra)
    else if left_single then 2 + Z.b2z (left_backward || left_intra)
    else 4
  else if avail ab then (if above_single then Z.b2z above_backward else 3)
  else if avail lf then (if left_single then Z.b2z left_backward else 3)
  else 1.
(** block_unit.rs:1584-1653: get_comp_ref_type_ctx *)
Definition is_samedir_ref_pair (r0 r1 : Z) : bool :=
  Bool.eqb (is_bwd_ref r0 && negb (r0 =? 8)) (is_bwd_ref r1 && negb (r1 =? 8)).
Definition get_comp_ref_type_ctx : Z :=
  let (left0, left1) := refs_of lf in
  let (above0, above1) := refs_of ab in
  let left_single := left1 =? 8 in let above_single := above1 =? 8 in
  let left_intra := left0 =? 0 in let above_intra := above0 =? 0 in
  let above_comp_inter := avail ab && negb above_intra && negb above_single in
  let left_comp_inter := avail lf && negb left_intra && negb left_single in
  let above_uni_comp := above_comp_inter && is_samedir_ref_pair above0 above1 in
  let left_uni_comp := left_comp_inter && is_samedir_ref_pair left0 left1 in
  if avail ab && negb above_intra && avail lf && negb left_intra then
    let samedir := Z.b2z (is_samedir_ref_pair above0 left0) in
    if negb above_comp_inter && negb left_comp_inter then 1 + 2 * samedir
    else if negb above_comp_inter then (if negb left_uni_comp then 1 else 3 + samedir)
    else if negb left_comp_inter then (if negb above_uni_comp then 1 else 3 + samedir)
    else if negb above_uni_comp && negb left_uni_comp then 0
    else if negb above_uni_comp || negb left_uni_comp then 2
    else 3 + Z.b2z (Bool.eqb (above0 =? 5) (left0 =? 5))
  else if avail ab && avail lf then
    if above_comp_inter then 1 + 2 * Z.b2z above_uni_comp
    else if left_comp_inter then 1 + 2 * Z.b2z left_uni_comp
    else 2
  else if above_comp_inter then 4 * Z.b2z above_uni_comp
  else if left_comp_inter then 4 * Z.b2z left_uni_comp
  else 2.

Definition bit (t : String.string) (ix : list Z) (b : bool) : writer := wsym t ix 2 (Z.b2z b).
(** frame_header.rs:67-152: write_ref_frames; [select] is reference_mode != SINGLE, [sz] the
    smaller of n4_w and n4_h *)
Definition write_ref_frames (select : bool) (sz : Z) (b : blk) : writer :=
  let comp_mode := has_second_ref b in
  (if select && (2 <=? sz) then bit "CompMode" [get_comp_mode_ctx] comp_mode else wguard (negb comp_mode) wnil)
  +++
  (if comp_mode then
     let compref := (rf0 b =? 4) || (rf0 b =? 3) in
     let comp_bwdref := rf1 b =? 7 in
     bit "CompRefType" [get_comp_ref_type_ctx] true
     +++ bit "CompRef" [get_pred_ctx_ll2_or_l3gld; 0] compref
     +++ (if negb compref then bit "CompRef" [get_pred_ctx_last_or_last2; 1] (rf0 b =? 2)
          else bit "CompRef" [get_pred_ctx_last3_or_gold; 2] (rf0 b =? 4))
     +++ bit "CompBwdRef" [get_pred_ctx_brfarf2_or_arf; 0] comp_bwdref
     +++ (if negb comp_bwdref then bit "CompBwdRef" [get_pred_ctx_brf_or_arf2; 1] (rf1 b =? 6) else wnil)
   else
     let b0 := negb (rf0 b =? 8) && is_bwd_ref (rf0 b) in
     bit "SingleRef" [get_ref_frame_ctx_b0; 0] b0
     +++ (if b0 then
            bit "SingleRef" [get_pred_ctx_brfarf2_or_arf; 1] (rf0 b =? 7)
            +++ (if negb (rf0 b =? 7) then bit "SingleRef" [get_pred_ctx_brf_or_arf2; 5] (rf0 b =? 6) else wnil)
          else
            let b2 := (rf0 b =? 3) || (rf0 b =? 4) in
            bit "SingleRef" [get_pred_ctx_ll2_or_l3gld; 2] b2
            +++ (if negb b2 then bit "SingleRef" [get_pred_ctx_last_or_last2; 3] (negb (rf0 b =? 1))
                 else bit "SingleRef" [get_pred_ctx_last3_or_gold; 4] (negb (rf0 b =? 3))))).
(** encoder.rs:1988-1992 and block_unit.rs:1775-1781 (write_is_inter) *)
Definition write_block_refs (select : bool) (sz : Z) (b : blk) : writer :=
  bit "IsInter" [intra_inter_context] (is_inter b) +++ (if is_inter b then write_ref_frames select sz b else wnil).
End Ctx.

(** above_of, left_of with the guards bo.y > 0, bo.x > 0; [blocks] row column *)
Definition above_of (blocks : Z -> Z -> blk) (x y : Z) : option blk := if 0 <? y then Some (blocks (y - 1) x) else None.
Definition left_of (blocks : Z -> Z -> blk) (x y : Z) : option blk := if 0 <? x then Some (blocks y (x - 1)) else None.
