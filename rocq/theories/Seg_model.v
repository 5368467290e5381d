(** Model of segment identifier coding: /repo/src/context/partition_unit.rs,
    /repo/src/encoder.rs (encode_block_pre_cdef), /repo/src/tiling/tile_blocks.rs.

    The tile's blocks are a function from (column, row), in 4x4 units, to the
    stored segmentation_idx.  The skip flag's own symbol is written by
    write_skip; its table index is taken as given here. *)
From Verif Require Import Sym.
Open Scope string_scope.
Open Scope Z_scope.
Open Scope list_scope.

Definition segmap := Z -> Z -> Z.

(** partition_unit.rs:359-386: neg_interleave; [None]: assert!(x < max) *)
Definition neg_interleave (x r max : Z) : option Z :=
  if negb (x <? max) then None
  else if r =? 0 then Some x
  else if max - 1 <=? r then Some (- x + max - 1)
  else
    let diff := x - r in
    if 2 * r <? max then
      if Z.abs diff <=? r then
        if 0 <? diff then Some (Z.shiftl diff 1 - 1) else Some (Z.shiftl (- diff) 1)
      else Some x
    else
      if Z.abs diff <? max - r then
        if 0 <? diff then Some (Z.shiftl diff 1 - 1) else Some (Z.shiftl (- diff) 1)
      else Some (max - x - 1).

(** `as i8` of a u8 *)
Definition as_i8 (v : Z) : Z := if v <? 128 then v else v - 256.
(** `as u8` of an i8 *)
Definition as_u8 (v : Z) : Z := v mod 256.

(** partition_unit.rs:204-247: get_segment_pred *)
Definition get_segment_pred (m : segmap) (x y last : Z) : Z * Z :=
  let prev_ul := if (0 <? x) && (0 <? y) then as_i8 (m (x - 1) (y - 1)) else -1 in
  let prev_u := if 0 <? y then as_i8 (m x (y - 1)) else -1 in
  let prev_l := if 0 <? x then as_i8 (m (x - 1) y) else -1 in
  let cdf_index :=
    if (prev_ul <? 0) || (prev_u <? 0) || (prev_l <? 0) then 0
    else if (prev_ul =? prev_u) && (prev_ul =? prev_l) then 2
    else if (prev_ul =? prev_u) || (prev_ul =? prev_l) || (prev_u =? prev_l) then 1
    else 0 in
  let r :=
    if prev_u =? -1 then if prev_l =? -1 then 0 else prev_l
    else if prev_l =? -1 then prev_u
    else if prev_ul =? prev_u then prev_u else prev_l in
  (Z.min (as_u8 r) last, cdf_index).

(** tile_blocks.rs:206-224 (for_each) and 259-263 (set_segmentation_idx): the
    part of the block inside the tile of [cols] x [rows] units *)
Definition set_segmentation_idx (cols rows : Z) (m : segmap) (x y bw bh idx : Z) : segmap :=
  let bw := if cols <=? x + bw then cols - x else bw in
  fun x' y' =>
    if (y <=? y') && (y' <? y + bh) && (y' <? rows) && (x <=? x') && (x' <? x + bw)
    then idx else m x' y'.

(** partition_unit.rs:388-414: write_segmentation.  `last_active_segid + 1` is
    u8 arithmetic. *)
Definition write_segmentation (cols rows : Z) (m : segmap) (x y bw bh : Z) (skip : bool) (last : Z)
  : option (list ev * segmap) :=
  let (pred, cdf_index) := get_segment_pred m x y last in
  if skip then Some ([], set_segmentation_idx cols rows m x y bw bh pred)
  else
    if 255 <? last + 1 then None else
    match neg_interleave (m x y) pred (last + 1) with
    | None => None
    | Some coded => Some ([ESym "segment_id" [cdf_index] 8 (coded mod 2 ^ 32)], m)
    end.

(** encoder.rs:1896-1929: encode_block_pre_cdef, segmentation enabled with
    update_map set. *)
Definition pre_cdef (preskip : bool) (last cols rows : Z) (m : segmap) (x y bw bh skip_ctx : Z) (skip : bool)
  : option (list ev * segmap) :=
  match (if preskip then write_segmentation cols rows m x y bw bh false last else Some ([], m)) with
  | None => None
  | Some (e1, m) =>
      let e2 := [ESym "skip" [skip_ctx] 2 (if skip then 1 else 0)] in
      match (if negb preskip then write_segmentation cols rows m x y bw bh skip last else Some ([], m)) with
      | None => None
      | Some (e3, m) => Some (e1 ++ e2 ++ e3, m)
      end
  end.

(** One coded block: position, size, skip flag, the skip table index, the
    segment chosen by the mode decision, and what the trial encodings leave in
    the block map. *)
Record sblock := {
  sb_x : Z; sb_y : Z; sb_w : Z; sb_h : Z;
  sb_skip : bool; sb_ctx : Z; sb_idx : Z; sb_trials : segmap
}.

(** the units of a block inside the tile *)
Definition in_block (cols rows : Z) (b : sblock) (c r : Z) : bool :=
  ((sb_x b <=? c) && (c <? sb_x b + sb_w b) && (c <? cols) &&
   (sb_y b <=? r) && (r <? sb_y b + sb_h b) && (r <? rows))%bool.

(** The blocks of a tile in coding order; [prev]: those already coded.
    encoder.rs:2584 and 3014 store the chosen index, then the block is written.
    Before that, the trial encodings of mode decision (rdo.rs:861, 1014) may
    have left anything in the units not coded yet. *)
Fixpoint encode_segments (preskip : bool) (last cols rows : Z) (prev : list sblock) (m : segmap)
    (bs : list sblock) : option (list ev * segmap) :=
  match bs with
  | [] => Some ([], m)
  | b :: bs =>
      let m := fun c r => if existsb (fun b => in_block cols rows b c r) prev then m c r else sb_trials b c r in
      let m := set_segmentation_idx cols rows m (sb_x b) (sb_y b) (sb_w b) (sb_h b) (sb_idx b) in
      match pre_cdef preskip last cols rows m (sb_x b) (sb_y b) (sb_w b) (sb_h b) (sb_ctx b) (sb_skip b) with
      | None => None
      | Some (e, m) =>
          match encode_segments preskip last cols rows (prev ++ [b]) m bs with
          | None => None
          | Some (e', m) => Some (e ++ e', m)
          end
      end
  end.
