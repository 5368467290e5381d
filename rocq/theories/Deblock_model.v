(** The deblocking filter: /repo/src/deblock.rs.  Pixels are integers; a plane is a
    function of row and column. *)
From Verif Require Export Base.
Open Scope Z_scope.
Open Scope list_scope.

Definition MAX_LOOP_FILTER : Z := 63.
(** [clamp] (v_frame math.rs): low, high *)
Definition clamp (x lo hi : Z) : Z := if x <? lo then lo else if hi <? x then hi else x.

(** *** Filters (deblock.rs:142-332).  i32 arithmetic; with 12-bit pixels nothing
    comes near its limits. *)
(** [filter_narrow2_4] (deblock.rs:142-173) *)
Definition filter_narrow2_4 (p1 p0 q0 q1 shift : Z) : list Z :=
  let lo := - Z.shiftl 128 shift in
  let hi := Z.shiftl 128 shift - 1 in
  let top := Z.shiftl 256 shift - 1 in
  let filter0 := clamp (p1 - q1) lo hi in
  let filter1 := Z.shiftr (clamp (filter0 + 3 * (q0 - p0) + 4) lo hi) 3 in
  let filter2 := Z.shiftr (clamp (filter0 + 3 * (q0 - p0) + 3) lo hi) 3 in
  [p1; clamp (p0 + filter2) 0 top; clamp (q0 - filter1) 0 top; q1].
(** [filter_narrow2_6], [filter_narrow2_12] (deblock.rs:176-192) *)
Definition filter_narrow2_6 (p2 p1 p0 q0 q1 q2 shift : Z) : list Z :=
  p2 :: filter_narrow2_4 p1 p0 q0 q1 shift ++ [q2].
Definition filter_narrow2_12 (p5 p4 p3 p2 p1 p0 q0 q1 q2 q3 q4 q5 shift : Z) : list Z :=
  [p5; p4; p3; p2] ++ filter_narrow2_4 p1 p0 q0 q1 shift ++ [q2; q3; q4; q5].
(** [filter_narrow4_4] (deblock.rs:195-223) *)
Definition filter_narrow4_4 (p1 p0 q0 q1 shift : Z) : list Z :=
  let lo := - Z.shiftl 128 shift in
  let hi := Z.shiftl 128 shift - 1 in
  let top := Z.shiftl 256 shift - 1 in
  let filter1 := Z.shiftr (clamp (3 * (q0 - p0) + 4) lo hi) 3 in
  let filter2 := Z.shiftr (clamp (3 * (q0 - p0) + 3) lo hi) 3 in
  let filter3 := Z.shiftr (filter1 + 1) 1 in
  [clamp (p1 + filter3) 0 top; clamp (p0 + filter2) 0 top; clamp (q0 - filter1) 0 top; clamp (q1 - filter3) 0 top].
(** [filter_narrow4_6], [filter_narrow4_12] (deblock.rs:226-242) *)
Definition filter_narrow4_6 (p2 p1 p0 q0 q1 q2 shift : Z) : list Z :=
  p2 :: filter_narrow4_4 p1 p0 q0 q1 shift ++ [q2].
Definition filter_narrow4_12 (p5 p4 p3 p2 p1 p0 q0 q1 q2 q3 q4 q5 shift : Z) : list Z :=
  [p5; p4; p3; p2] ++ filter_narrow4_4 p1 p0 q0 q1 shift ++ [q2; q3; q4; q5].
(** [filter_wide6_4] (deblock.rs:245-257) *)
Definition filter_wide6_4 (p2 p1 p0 q0 q1 q2 : Z) : list Z :=
  [Z.shiftr (p2 * 3 + p1 * 2 + p0 * 2 + q0 + 4) 3;
   Z.shiftr (p2 + p1 * 2 + p0 * 2 + q0 * 2 + q1 + 4) 3;
   Z.shiftr (p1 + p0 * 2 + q0 * 2 + q1 * 2 + q2 + 4) 3;
   Z.shiftr (p0 + q0 * 2 + q1 * 2 + q2 * 3 + 4) 3].
(** [filter_wide8_6], [filter_wide8_12] (deblock.rs:260-284) *)
Definition filter_wide8_6 (p3 p2 p1 p0 q0 q1 q2 q3 : Z) : list Z :=
  [Z.shiftr (p3 * 3 + p2 * 2 + p1 + p0 + q0 + 4) 3;
   Z.shiftr (p3 * 2 + p2 + p1 * 2 + p0 + q0 + q1 + 4) 3;
   Z.shiftr (p3 + p2 + p1 + p0 * 2 + q0 + q1 + q2 + 4) 3;
   Z.shiftr (p2 + p1 + p0 + q0 * 2 + q1 + q2 + q3 + 4) 3;
   Z.shiftr (p1 + p0 + q0 + q1 * 2 + q2 + q3 * 2 + 4) 3;
   Z.shiftr (p0 + q0 + q1 + q2 * 2 + q3 * 3 + 4) 3].
Definition filter_wide8_12 (p5 p4 p3 p2 p1 p0 q0 q1 q2 q3 q4 q5 : Z) : list Z :=
  [p5; p4; p3] ++ filter_wide8_6 p3 p2 p1 p0 q0 q1 q2 q3 ++ [q3; q4; q5].
(** [filter_wide14_12] (deblock.rs:287-309) *)
Definition filter_wide14_12 (p6 p5 p4 p3 p2 p1 p0 q0 q1 q2 q3 q4 q5 q6 : Z) : list Z :=
  [Z.shiftr (p6 * 7 + p5 * 2 + p4 * 2 + p3 + p2 + p1 + p0 + q0 + 8) 4;
   Z.shiftr (p6 * 5 + p5 * 2 + p4 * 2 + p3 * 2 + p2 + p1 + p0 + q0 + q1 + 8) 4;
   Z.shiftr (p6 * 4 + p5 + p4 * 2 + p3 * 2 + p2 * 2 + p1 + p0 + q0 + q1 + q2 + 8) 4;
   Z.shiftr (p6 * 3 + p5 + p4 + p3 * 2 + p2 * 2 + p1 * 2 + p0 + q0 + q1 + q2 + q3 + 8) 4;
   Z.shiftr (p6 * 2 + p5 + p4 + p3 + p2 * 2 + p1 * 2 + p0 * 2 + q0 + q1 + q2 + q3 + q4 + 8) 4;
   Z.shiftr (p6 + p5 + p4 + p3 + p2 + p1 * 2 + p0 * 2 + q0 * 2 + q1 + q2 + q3 + q4 + q5 + 8) 4;
   Z.shiftr (p5 + p4 + p3 + p2 + p1 + p0 * 2 + q0 * 2 + q1 * 2 + q2 + q3 + q4 + q5 + q6 + 8) 4;
   Z.shiftr (p4 + p3 + p2 + p1 + p0 + q0 * 2 + q1 * 2 + q2 * 2 + q3 + q4 + q5 + q6 * 2 + 8) 4;
   Z.shiftr (p3 + p2 + p1 + p0 + q0 + q1 * 2 + q2 * 2 + q3 * 2 + q4 + q5 + q6 * 3 + 8) 4;
   Z.shiftr (p2 + p1 + p0 + q0 + q1 + q2 * 2 + q3 * 2 + q4 * 2 + q5 + q6 * 4 + 8) 4;
   Z.shiftr (p1 + p0 + q0 + q1 + q2 + q3 * 2 + q4 * 2 + q5 * 2 + q6 * 5 + 8) 4;
   Z.shiftr (p0 + q0 + q1 + q2 + q3 + q4 * 2 + q5 * 2 + q6 * 7 + 8) 4].

(** *** Decisions (deblock.rs:340-392) *)
Definition limit_to_level (limit shift : Z) : Z := Z.shiftr (limit + Z.shiftl 1 shift - 1) shift.
Definition blimit_to_level (blimit shift : Z) : Z :=
  Z.quot (Z.shiftr (blimit + Z.shiftl 1 shift - 1) shift - 2) 3.
Definition thresh_to_level (thresh shift : Z) : Z :=
  Z.shiftl (Z.shiftr (thresh + Z.shiftl 1 shift - 1) shift) 4.
Definition nhev4 (p1 p0 q0 q1 shift : Z) : Z :=
  thresh_to_level (Z.max (Z.abs (p1 - p0)) (Z.abs (q1 - q0))) shift.
Definition mask4 (p1 p0 q0 q1 shift : Z) : Z :=
  Z.max (limit_to_level (Z.max (Z.abs (p1 - p0)) (Z.abs (q1 - q0))) shift)
        (blimit_to_level (Z.abs (p0 - q0) * 2 + Z.quot (Z.abs (p1 - q1)) 2) shift).
(** [mask6], [flat6] (deblock.rs:505-530) *)
Definition mask6 (p2 p1 p0 q0 q1 q2 shift : Z) : Z :=
  Z.max (limit_to_level (Z.max (Z.abs (p2 - p1)) (Z.max (Z.abs (p1 - p0)) (Z.max (Z.abs (q2 - q1)) (Z.abs (q1 - q0))))) shift)
        (blimit_to_level (Z.abs (p0 - q0) * 2 + Z.quot (Z.abs (p1 - q1)) 2) shift).
Definition flat6 (p2 p1 p0 q0 q1 q2 : Z) : Z :=
  Z.max (Z.abs (p1 - p0)) (Z.max (Z.abs (q1 - q0)) (Z.max (Z.abs (p2 - p0)) (Z.abs (q2 - q0)))).
(** [mask8], [flat8] (deblock.rs:642-684) *)
Definition mask8 (p3 p2 p1 p0 q0 q1 q2 q3 shift : Z) : Z :=
  Z.max (limit_to_level (Z.max (Z.abs (p3 - p2)) (Z.max (Z.abs (p2 - p1)) (Z.max (Z.abs (p1 - p0))
           (Z.max (Z.abs (q3 - q2)) (Z.max (Z.abs (q2 - q1)) (Z.abs (q1 - q0))))))) shift)
        (blimit_to_level (Z.abs (p0 - q0) * 2 + Z.quot (Z.abs (p1 - q1)) 2) shift).
Definition flat8 (p3 p2 p1 p0 q0 q1 q2 q3 : Z) : Z :=
  Z.max (Z.abs (p1 - p0)) (Z.max (Z.abs (q1 - q0)) (Z.max (Z.abs (p2 - p0)) (Z.max (Z.abs (q2 - q0))
    (Z.max (Z.abs (p3 - p0)) (Z.abs (q3 - q0)))))).
(** [flat14_outer] (deblock.rs:829-842) *)
Definition flat14_outer (p6 p5 p4 p0 q0 q4 q5 q6 : Z) : Z :=
  Z.max (Z.abs (p4 - p0)) (Z.max (Z.abs (q4 - q0)) (Z.max (Z.abs (p5 - p0)) (Z.max (Z.abs (q5 - q0))
    (Z.max (Z.abs (p6 - p0)) (Z.abs (q6 - q0)))))).

(** *** The four kernels: deblock_size4_inner (394-409), deblock_size6_inner (532-549),
    deblock_size8_inner (686-703), deblock_size14_inner (844-876).  [v i] is tap [i].
    The result is the offset at which it is stored (the argument of
    [copy_horizontal]/[copy_vertical]) and the new pixels. *)
Definition deblock_inner (size : Z) (v : Z -> Z) (level bd : Z) : option (Z * list Z) :=
  let flat := Z.shiftl 1 (bd - 8) in
  if size =? 4 then
    let p1 := v 0 in let p0 := v 1 in let q0 := v 2 in let q1 := v 3 in
    if mask4 p1 p0 q0 q1 (bd - 8) <=? level then
      Some (0, if nhev4 p1 p0 q0 q1 (bd - 8) <=? level then filter_narrow4_4 p1 p0 q0 q1 (bd - 8)
               else filter_narrow2_4 p1 p0 q0 q1 (bd - 8))
    else None
  else if size =? 6 then
    let p2 := v 0 in let p1 := v 1 in let p0 := v 2 in
    let q0 := v 3 in let q1 := v 4 in let q2 := v 5 in
    if mask6 p2 p1 p0 q0 q1 q2 (bd - 8) <=? level then
      Some (1, if flat6 p2 p1 p0 q0 q1 q2 <=? flat then filter_wide6_4 p2 p1 p0 q0 q1 q2
               else if nhev4 p1 p0 q0 q1 (bd - 8) <=? level then filter_narrow4_4 p1 p0 q0 q1 (bd - 8)
               else filter_narrow2_4 p1 p0 q0 q1 (bd - 8))
    else None
  else if size =? 8 then
    let p3 := v 0 in let p2 := v 1 in let p1 := v 2 in let p0 := v 3 in
    let q0 := v 4 in let q1 := v 5 in let q2 := v 6 in let q3 := v 7 in
    if mask8 p3 p2 p1 p0 q0 q1 q2 q3 (bd - 8) <=? level then
      Some (1, if flat8 p3 p2 p1 p0 q0 q1 q2 q3 <=? flat then filter_wide8_6 p3 p2 p1 p0 q0 q1 q2 q3
               else if nhev4 p1 p0 q0 q1 (bd - 8) <=? level then filter_narrow4_6 p2 p1 p0 q0 q1 q2 (bd - 8)
               else filter_narrow2_6 p2 p1 p0 q0 q1 q2 (bd - 8))
    else None
  else if size =? 14 then
    let p6 := v 0 in let p5 := v 1 in let p4 := v 2 in let p3 := v 3 in let p2 := v 4 in
    let p1 := v 5 in let p0 := v 6 in let q0 := v 7 in let q1 := v 8 in let q2 := v 9 in
    let q3 := v 10 in let q4 := v 11 in let q5 := v 12 in let q6 := v 13 in
    if mask8 p3 p2 p1 p0 q0 q1 q2 q3 (bd - 8) <=? level then
      Some (1, if flat8 p3 p2 p1 p0 q0 q1 q2 q3 <=? flat then
                 if flat14_outer p6 p5 p4 p0 q0 q4 q5 q6 <=? flat
                 then filter_wide14_12 p6 p5 p4 p3 p2 p1 p0 q0 q1 q2 q3 q4 q5 q6
                 else filter_wide8_12 p5 p4 p3 p2 p1 p0 q0 q1 q2 q3 q4 q5
               else if nhev4 p1 p0 q0 q1 (bd - 8) <=? level
                 then filter_narrow4_12 p5 p4 p3 p2 p1 p0 q0 q1 q2 q3 q4 q5 (bd - 8)
                 else filter_narrow2_12 p5 p4 p3 p2 p1 p0 q0 q1 q2 q3 q4 q5 (bd - 8))
    else None
  else None.

(** One line of [size] pixels across an edge: the loop bodies of deblock_v_size4 (412-422)
    and its seven siblings.  [tbits] is the width of the pixel type, to which
    [T::cast_from] truncates. *)
Definition deblock_line (tbits size : Z) (v : Z -> Z) (level bd : Z) (i : Z) : Z :=
  match deblock_inner size v level bd with
  | Some (off, l) =>
      if (off <=? i) && (i <? off + zlen l) then nth (Z.to_nat (i - off)) l 0 mod 2 ^ tbits else v i
  | None => v i
  end.

(** *** Distortion tallies (deblock.rs:448-502, 578-640, 741-826, 934-1096) *)
(** [stride_sse] (deblock.rs:334-337) *)
Fixpoint stride_sse (a b : list Z) : Z :=
  match a, b with
  | x :: a, y :: b => (x - y) * (x - y) + stride_sse a b
  | _, _ => 0
  end.
Definition tally_add (t : Z -> Z) (i d : Z) : Z -> Z := fun j => if j =? i then t j + d else t j.

(** One line of sse_size4, sse_size6, sse_size8, sse_size14: [v] the reconstructed taps,
    [s] the source pixels at the same places. *)
Definition taps (v : Z -> Z) (off n : Z) : list Z := map (fun i => v (off + Z.of_nat i)) (seq 0 (Z.to_nat n)).
Definition tally_narrow (t : Z -> Z) (mask nhev sse_none sse_narrow2 sse_narrow4 : Z) : Z -> Z :=
  tally_add (tally_add (tally_add (tally_add (tally_add t 0 sse_none) mask (- sse_none))
    mask sse_narrow2) nhev (- sse_narrow2)) nhev sse_narrow4.
Definition tally_wide (t : Z -> Z) (mask sse_none sse_wide : Z) : Z -> Z :=
  tally_add (tally_add (tally_add t 0 sse_none) mask (- sse_none)) mask sse_wide.
Definition sse_line (size : Z) (v s : Z -> Z) (bd : Z) (t : Z -> Z) : Z -> Z :=
  let flat := Z.shiftl 1 (bd - 8) in
  if size =? 4 then
    let p1 := v 0 in let p0 := v 1 in let q0 := v 2 in let q1 := v 3 in
    let a := taps s 0 4 in
    let none := [p1; p0; q0; q1] in
    let mask := clamp (mask4 p1 p0 q0 q1 (bd - 8)) 1 (MAX_LOOP_FILTER + 1) in
    let nhev := clamp (nhev4 p1 p0 q0 q1 (bd - 8)) mask (MAX_LOOP_FILTER + 1) in
    let sse_none := stride_sse a none in
    let sse_narrow2 := if negb (nhev =? mask) then stride_sse a (filter_narrow2_4 p1 p0 q0 q1 (bd - 8)) else sse_none in
    let sse_narrow4 := if nhev <=? MAX_LOOP_FILTER then stride_sse a (filter_narrow4_4 p1 p0 q0 q1 (bd - 8)) else sse_none in
    tally_narrow t mask nhev sse_none sse_narrow2 sse_narrow4
  else if size =? 6 then
    let p2 := v 0 in let p1 := v 1 in let p0 := v 2 in
    let q0 := v 3 in let q1 := v 4 in let q2 := v 5 in
    let a := taps s 1 4 in
    let none := [p1; p0; q0; q1] in
    let mask := clamp (mask6 p2 p1 p0 q0 q1 q2 (bd - 8)) 1 (MAX_LOOP_FILTER + 1) in
    let flatp := flat6 p2 p1 p0 q0 q1 q2 <=? flat in
    let nhev := clamp (nhev4 p1 p0 q0 q1 (bd - 8)) mask (MAX_LOOP_FILTER + 1) in
    let sse_none := stride_sse a none in
    let sse_wide6 := if flatp && (mask <=? MAX_LOOP_FILTER) then stride_sse a (filter_wide6_4 p2 p1 p0 q0 q1 q2) else sse_none in
    let sse_narrow2 := if negb flatp && negb (nhev =? mask) then stride_sse a (filter_narrow2_4 p1 p0 q0 q1 (bd - 8)) else sse_none in
    let sse_narrow4 := if negb flatp && (nhev <=? MAX_LOOP_FILTER) then stride_sse a (filter_narrow4_4 p1 p0 q0 q1 (bd - 8)) else sse_none in
    if flatp then tally_wide t mask sse_none sse_wide6
    else tally_narrow t mask nhev sse_none sse_narrow2 sse_narrow4
  else if size =? 8 then
    let p3 := v 0 in let p2 := v 1 in let p1 := v 2 in let p0 := v 3 in
    let q0 := v 4 in let q1 := v 5 in let q2 := v 6 in let q3 := v 7 in
    let a := taps s 1 6 in
    let none := [p2; p1; p0; q0; q1; q2] in
    let mask := clamp (mask8 p3 p2 p1 p0 q0 q1 q2 q3 (bd - 8)) 1 (MAX_LOOP_FILTER + 1) in
    let flatp := flat8 p3 p2 p1 p0 q0 q1 q2 q3 <=? flat in
    let nhev := clamp (nhev4 p1 p0 q0 q1 (bd - 8)) mask (MAX_LOOP_FILTER + 1) in
    let sse_none := stride_sse a none in
    let sse_wide8 := if flatp && (mask <=? MAX_LOOP_FILTER) then stride_sse a (filter_wide8_6 p3 p2 p1 p0 q0 q1 q2 q3) else sse_none in
    let sse_narrow2 := if negb flatp && negb (nhev =? mask) then stride_sse a (filter_narrow2_6 p2 p1 p0 q0 q1 q2 (bd - 8)) else sse_none in
    let sse_narrow4 := if negb flatp && (nhev <=? MAX_LOOP_FILTER) then stride_sse a (filter_narrow4_6 p2 p1 p0 q0 q1 q2 (bd - 8)) else sse_none in
    if flatp then tally_wide t mask sse_none sse_wide8
    else tally_narrow t mask nhev sse_none sse_narrow2 sse_narrow4
  else if size =? 14 then
    let p6 := v 0 in let p5 := v 1 in let p4 := v 2 in let p3 := v 3 in let p2 := v 4 in
    let p1 := v 5 in let p0 := v 6 in let q0 := v 7 in let q1 := v 8 in let q2 := v 9 in
    let q3 := v 10 in let q4 := v 11 in let q5 := v 12 in let q6 := v 13 in
    let a := taps s 1 12 in
    let none := [p5; p4; p3; p2; p1; p0; q0; q1; q2; q3; q4; q5] in
    let mask := clamp (mask8 p3 p2 p1 p0 q0 q1 q2 q3 (bd - 8)) 1 (MAX_LOOP_FILTER + 1) in
    let flat8p := flat8 p3 p2 p1 p0 q0 q1 q2 q3 <=? flat in
    let flat14p := flat14_outer p6 p5 p4 p0 q0 q4 q5 q6 <=? flat in
    let nhev := clamp (nhev4 p1 p0 q0 q1 (bd - 8)) mask (MAX_LOOP_FILTER + 1) in
    let sse_none := stride_sse a none in
    let sse_wide8 := if flat8p && negb flat14p && (mask <=? MAX_LOOP_FILTER)
      then stride_sse a (filter_wide8_12 p5 p4 p3 p2 p1 p0 q0 q1 q2 q3 q4 q5) else sse_none in
    let sse_wide14 := if flat8p && flat14p && (mask <=? MAX_LOOP_FILTER)
      then stride_sse a (filter_wide14_12 p6 p5 p4 p3 p2 p1 p0 q0 q1 q2 q3 q4 q5 q6) else sse_none in
    let sse_narrow2 := if negb flat8p && negb (nhev =? mask)
      then stride_sse a (filter_narrow2_12 p5 p4 p3 p2 p1 p0 q0 q1 q2 q3 q4 q5 (bd - 8)) else sse_none in
    let sse_narrow4 := if negb flat8p && (nhev <=? MAX_LOOP_FILTER)
      then stride_sse a (filter_narrow4_12 p5 p4 p3 p2 p1 p0 q0 q1 q2 q3 q4 q5 (bd - 8)) else sse_none in
    if flat8p then if flat14p then tally_wide t mask sse_none sse_wide14 else tally_wide t mask sse_none sse_wide8
    else tally_narrow t mask nhev sse_none sse_narrow2 sse_narrow4
  else t.

(** *** Blocks *)
(** The fields of [Block] (context/block_unit.rs) that deblocking reads.  Sizes are
    given by log2 of width and height in units of four pixels; [b_cw], [b_ch] stand for
    [bsize.largest_chroma_tx_size(xdec, ydec)].  The prediction mode is the pair of
    [ref_frames[0]] (0 for INTRA_FRAME) and the mode type of deblock.rs:50-52. *)
Record block := {
  b_w : Z; b_h : Z;          (* bsize, log2 of n4_w and n4_h *)
  b_tw : Z; b_th : Z;        (* txsize, log2 of width_mi and height_mi *)
  b_skip : bool;
  b_ref : Z;
  b_moving : bool;           (* mode >= NEARESTMV and not GLOBALMV, GLOBAL_GLOBALMV *)
  b_deltas : Z -> Z          (* deblock_deltas *)
}.
(** [DeblockState] (encoder.rs:522-532) *)
Record deblock_state := {
  d_levels : Z -> Z;
  d_deltas_enabled : bool;
  d_ref_deltas : Z -> Z;
  d_mode_deltas : Z -> Z;
  d_block_deltas_enabled : bool;
  d_block_delta_shift : Z;
  d_block_delta_multi : bool
}.

(** [BlockSize::largest_chroma_tx_size] (partition.rs:385-393) through
    [subsampled_size] (partition.rs:325-380, a minimum side of four pixels),
    max_txsize_rect_lookup and [av1_get_coded_tx_size] (sides capped at 32).  log2 in
    units of four pixels. *)
Definition chroma_side (w dec : Z) : Z := Z.min 3 (Z.max 0 (w - dec)).

(** [deblock_adjusted_level] (deblock.rs:23-66); [reference.to_index()] is the reference
    minus one (partition.rs:49-59; it panics on an intra block, which is not modelled: the
    branch needs deltas_enabled, which rav1e never sets) *)
Definition deblock_adjusted_level (d : deblock_state) (b : block) (pli : Z) (vertical : bool) : Z :=
  let idx := if pli =? 0 then (if vertical then 0 else 1) else pli + 1 in
  let level :=
    if d_block_deltas_enabled d then
      let delta := Z.shiftl (b_deltas b (if d_block_delta_multi d then idx else 0)) (d_block_delta_shift d) in
      clamp (delta + d_levels d idx) 0 MAX_LOOP_FILTER
    else d_levels d idx in
  if d_deltas_enabled d then
    let l5 := Z.shiftr level 5 in
    clamp (level + Z.shiftl (d_ref_deltas d (b_ref b - 1)) l5 +
           (if b_ref b =? 0 then 0 else Z.shiftl (d_mode_deltas d (if b_moving b then 1 else 0)) l5))
          0 MAX_LOOP_FILTER
  else level.
(** [deblock_level] (deblock.rs:129-139) *)
Definition deblock_level (d : deblock_state) (b prev : block) (pli : Z) (vertical : bool) : Z :=
  let level := deblock_adjusted_level d b pli vertical in
  if level =? 0 then deblock_adjusted_level d prev pli vertical else level.

(** transform width and height (log2 in mi) used by deblock_size and filter_v_edge *)
Definition tx_w (pli xdec : Z) (b : block) : Z := if pli =? 0 then b_tw b else chroma_side (b_w b) xdec.
Definition tx_h (pli ydec : Z) (b : block) : Z := if pli =? 0 then b_th b else chroma_side (b_h b) ydec.
(** [deblock_size] (deblock.rs:94-126) *)
Definition deblock_size (b prev : block) (xdec ydec pli : Z) (vertical block_edge : bool) : Z :=
  if negb (block_edge || negb (b_skip b) || negb (b_skip prev) || (b_ref b =? 0) || (b_ref prev =? 0)) then 0
  else
    let n := if vertical then Z.min (2 ^ tx_w pli xdec b) (2 ^ tx_w pli xdec prev)
             else Z.min (2 ^ tx_h pli ydec b) (2 ^ tx_h pli ydec prev) in
    Z.min (if pli =? 0 then 14 else 6) (Z.shiftl n 2).

(** A plane of pixels, by row and column *)
Definition plane := Z -> Z -> Z.

Section Plane.
Variables (d : deblock_state) (blocks : Z -> Z -> block) (pli bd tbits xdec ydec : Z).

(** [deblock_left], [deblock_up] (deblock.rs:68-91); arguments are x and y *)
Definition deblock_left (x y : Z) : block := blocks (Z.lor y ydec) (Z.lor x xdec - Z.shiftl 1 xdec).
Definition deblock_up (x y : Z) : block := blocks (Z.lor y ydec - Z.shiftl 1 ydec) (Z.lor x xdec).

(** size and level of the filter at a vertical edge, 0 for none: the decisions of
    [filter_v_edge] (deblock.rs:1098-1118) *)
Definition v_size (x y : Z) : Z :=
  let b := blocks y x in
  if Z.land (Z.shiftr x xdec) (2 ^ tx_w pli xdec b - 1) =? 0 then
    deblock_size b (deblock_left x y) xdec ydec pli true (Z.land x (2 ^ b_w b - 1) =? 0)
  else 0.
Definition v_level (x y : Z) : Z := deblock_level d (blocks y x) (deblock_left x y) pli true.
(** [filter_v_edge] (deblock.rs:1098-1143): four lines *)
Definition filter_v_edge (x y : Z) (p : plane) : plane :=
  let size := v_size x y in
  let level := v_level x y in
  if (0 <? size) && (0 <? level) then
    let px := Z.shiftl (Z.shiftr x xdec) 2 - Z.shiftr size 1 in
    let py := Z.shiftl (Z.shiftr y ydec) 2 in
    fun r c =>
      if (py <=? r) && (r <? py + 4) && (px <=? c) && (c <? px + size) then
        deblock_line tbits size (fun i => p r (px + i)) level bd (c - px)
      else p r c
  else p.

(** horizontal edges: [filter_h_edge] (deblock.rs:1196-1241) *)
Definition h_size (x y : Z) : Z :=
  let b := blocks y x in
  if Z.land (Z.shiftr y ydec) (2 ^ tx_h pli ydec b - 1) =? 0 then
    deblock_size b (deblock_up x y) xdec ydec pli false (Z.land y (2 ^ b_h b - 1) =? 0)
  else 0.
Definition h_level (x y : Z) : Z := deblock_level d (blocks y x) (deblock_up x y) pli false.
Definition filter_h_edge (x y : Z) (p : plane) : plane :=
  let size := h_size x y in
  let level := h_level x y in
  if (0 <? size) && (0 <? level) then
    let px := Z.shiftl (Z.shiftr x xdec) 2 in
    let py := Z.shiftl (Z.shiftr y ydec) 2 - Z.shiftr size 1 in
    fun r c =>
      if (px <=? c) && (c <? px + 4) && (py <=? r) && (r <? py + size) then
        deblock_line tbits size (fun i => p (py + i) c) level bd (r - py)
      else p r c
  else p.

(** [for x in (a..b).step_by(1 << dec)] *)
Definition steps (a b dec : Z) : list Z :=
  map (fun i => a + Z.of_nat i * Z.shiftl 1 dec) (seq 0 (Z.to_nat ((b - a + Z.shiftl 1 dec - 1) / Z.shiftl 1 dec))).

(** An edge visited by [deblock_plane]: vertical?, x, y *)
Inductive edge := VE (x y : Z) | HE (x y : Z).
Definition filter_edge (p : plane) (e : edge) : plane :=
  match e with VE x y => filter_v_edge x y p | HE x y => filter_h_edge x y p end.

(** The number of columns and rows of [deblock_plane] (deblock.rs:1316-1328);
    [bcols] = blocks.cols(); the region starts at (0, 0) as it does for a whole frame *)
Definition edge_count (bcols crop dec : Z) : Z :=
  Z.shiftl (Z.shiftr (Z.min bcols (Z.shiftr (crop + 4 - 1) 2) + Z.shiftr (Z.shiftl 1 dec) 1) dec) dec.

(** The order in which [deblock_plane] visits the edges (deblock.rs:1330-1449) *)
Definition edge_order (cols rows : Z) : list edge :=
  let sx := Z.shiftl 1 xdec in
  let sy := Z.shiftl 1 ydec in
  (if 0 <? rows then
     map (fun x => VE x 0) (steps sx cols xdec) ++
     (if sy <? rows then map (fun x => VE x sy) (steps sx cols xdec) else [])
   else []) ++
  flat_map (fun y =>
    (if sx <? cols then [VE sx y] else []) ++
    flat_map (fun x => [VE x y; HE (x - 2 * sx) (y - sy)]) (steps (2 * sx) cols xdec) ++
    (if 2 * sx <=? cols then [HE (cols - 2 * sx) (y - sy)] else []) ++
    (if sx <=? cols then [HE (cols - sx) (y - sy)] else [])) (steps (2 * sy) rows ydec) ++
  (if sy <? rows then map (fun x => HE x (rows - sy)) (steps 0 cols xdec) else []).

(** [deblock_plane] (deblock.rs:1290-1450) *)
Definition deblock_plane (bcols brows crop_w crop_h : Z) (p : plane) : plane :=
  if (pli =? 0) && (d_levels d 0 =? 0) && (d_levels d 1 =? 0) then p
  else if (pli =? 1) && (d_levels d 2 =? 0) then p
  else if (pli =? 2) && (d_levels d 3 =? 0) then p
  else if 2 <? pli then p
  else fold_left filter_edge (edge_order (edge_count bcols crop_w xdec) (edge_count brows crop_h ydec)) p.

(** *** Tallies of a plane *)
(** [sse_v_edge] and [sse_h_edge] (deblock.rs:1145-1194, 1243-1287).  Note that
    [sse_h_edge] calls [deblock_size] with [vertical] = true. *)
Definition lines (f : Z -> (Z -> Z) -> Z -> Z) (t : Z -> Z) : Z -> Z := f 3 (f 2 (f 1 (f 0 t))).
Definition sse_v_edge (rec src : plane) (x y : Z) (t : Z -> Z) : Z -> Z :=
  let size := v_size x y in
  if 0 <? size then
    let px := Z.shiftl (Z.shiftr x xdec) 2 - Z.shiftr size 1 in
    let py := Z.shiftl (Z.shiftr y ydec) 2 in
    lines (fun k => sse_line size (fun i => rec (py + k) (px + i)) (fun i => src (py + k) (px + i)) bd) t
  else t.
Definition h_size_tally (x y : Z) : Z :=
  let b := blocks y x in
  if Z.land (Z.shiftr y ydec) (2 ^ tx_h pli ydec b - 1) =? 0 then
    deblock_size b (deblock_up x y) xdec ydec pli true (Z.land y (2 ^ b_h b - 1) =? 0)
  else 0.
Definition sse_h_edge (rec src : plane) (x y : Z) (t : Z -> Z) : Z -> Z :=
  let size := h_size_tally x y in
  if 0 <? size then
    let px := Z.shiftl (Z.shiftr x xdec) 2 in
    let py := Z.shiftl (Z.shiftr y ydec) 2 - Z.shiftr size 1 in
    lines (fun k => sse_line size (fun i => rec (py + i) (px + k)) (fun i => src (py + i) (px + k)) bd) t
  else t.
(** [sse_plane] (deblock.rs:1453-1536): both tallies *)
Definition sse_plane (rec src : plane) (bcols brows crop_w crop_h : Z) : (Z -> Z) * (Z -> Z) :=
  let cols := edge_count bcols crop_w xdec in
  let rows := edge_count brows crop_h ydec in
  let sx := Z.shiftl 1 xdec in
  let sy := Z.shiftl 1 ydec in
  let start := (fold_left (fun t x => sse_v_edge rec src x 0 t) (steps sx cols xdec) (fun _ => 0), fun _ => 0) in
  fold_left (fun vh y =>
    fold_left (fun vh x => (sse_v_edge rec src x y (fst vh), sse_h_edge rec src x y (snd vh)))
      (steps sx cols xdec) (fst vh, sse_h_edge rec src 0 y (snd vh)))
    (steps sy rows ydec) start.

End Plane.

(** the running sum [tally[i] += tally[i - 1]] (deblock.rs:1582-1585) *)
Fixpoint running (t : Z -> Z) (i : nat) : Z :=
  match i with O => t 0 | S j => t (Z.of_nat i) + running t j end.
(** the search for the smallest entry (deblock.rs:1589-1616); [f] is the summed tally *)
Definition best_level (f : Z -> Z) : Z :=
  fold_left (fun best i => if (best =? 999) || (f i <? f best) then i else best)
    (map Z.of_nat (seq 0 64)) 999.
(** [sse_optimize] (deblock.rs:1551-1623) for one plane: the level(s) *)
Definition sse_levels (pli : Z) (v h : Z -> Z) : list Z :=
  let rv := fun i => running v (Z.to_nat i) in
  let rh := fun i => running h (Z.to_nat i) in
  if pli =? 0 then [best_level rv; best_level rh] else [best_level (fun i => rv i + rh i)].
