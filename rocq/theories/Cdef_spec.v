(** The constrained directional enhancement filter of the AV1 specification (7.15),
    written from the specification.  It does not use the model of the encoder. *)
From Verif Require Import Base.
Open Scope Z_scope.

Definition Clip3 (lo hi x : Z) : Z := if x <? lo then lo else if hi <? x then hi else x.
Definition range (n : Z) : list Z := map Z.of_nat (seq 0 (Z.to_nat n)).
Definition sum (l : list Z) : Z := fold_right Z.add 0 l.

(* 5.9.19: the strengths as read from the header *)
Definition sec_strength_of_syntax (s : Z) : Z := if s =? 3 then s + 1 else s.

(* Constant tables of 7.15 *)
Definition Div_Table : list Z := [0; 840; 420; 280; 210; 168; 140; 120; 105].
Definition Cdef_Uv_Dir (subX subY : Z) : list Z :=
  if subX =? 0
  then (if subY =? 0 then [0; 1; 2; 3; 4; 5; 6; 7] else [1; 2; 2; 2; 3; 4; 6; 0])
  else (if subY =? 0 then [7; 0; 2; 4; 5; 6; 6; 6] else [0; 1; 2; 3; 4; 5; 6; 7]).
(* the rows of Cdef_Directions: for k = 0 and k = 1, the offset down and the offset right *)
Definition Cdef_Directions : list (list (Z * Z)) :=
  [ [(-1, 1); (-2, 2)]; [(0, 1); (-1, 2)]; [(0, 1); (0, 2)]; [(0, 1); (1, 2)];
    [(1, 1); (2, 2)]; [(1, 0); (2, 1)]; [(1, 0); (2, 0)]; [(1, 0); (2, -1)] ].
Definition Cdef_Pri_Taps : list (list Z) := [[4; 2]; [3; 3]].
Definition Cdef_Sec_Taps : list (list Z) := [[2; 1]; [2; 1]].
Definition at2 (t : list (list Z)) (a b : Z) : Z := nth (Z.to_nat b) (nth (Z.to_nat a) t []) 0.
Definition dir_off (d k : Z) : Z * Z := nth (Z.to_nat k) (nth (Z.to_nat d) Cdef_Directions []) (0, 0).
Definition div_table (n : Z) : Z := nth (Z.to_nat n) Div_Table 0.

(** ** 7.15.2: the direction of an 8x8 block of luma; [x i j] is the sample in row [i] and
    column [j], scaled to 8 bits and less 128. *)
Section Direction.
Variable x : Z -> Z -> Z.
(* the line of direction [d] the sample belongs to *)
Definition line_of (d i j : Z) : Z :=
  if d =? 0 then i + j else if d =? 1 then i + j / 2 else if d =? 2 then i
  else if d =? 3 then 3 + i - j / 2 else if d =? 4 then 7 + i - j
  else if d =? 5 then 3 - i / 2 + j else if d =? 6 then j else i / 2 + j.
Definition partial (d k : Z) : Z :=
  sum (map (fun ij => if line_of d (fst ij) (snd ij) =? k then x (fst ij) (snd ij) else 0)
    (list_prod (range 8) (range 8))).
Definition sq (d k : Z) : Z := partial d k * partial d k.
Definition cost (d : Z) : Z :=
  if (d =? 2) || (d =? 6) then sum (map (sq d) (range 8)) * div_table 8
  else if (d =? 0) || (d =? 4)
  then sum (map (fun i => (sq d i + sq d (14 - i)) * div_table (i + 1)) (range 7))
       + sq d 7 * div_table 8
  else sum (map (fun j => sq d (3 + j)) (range 5)) * div_table 8
       + sum (map (fun j => (sq d j + sq d (10 - j)) * div_table (2 * j + 2)) (range 3)).
(* the best cost and its direction *)
Definition best : Z * Z :=
  fold_left (fun bc d => if fst bc <? cost d then (cost d, d) else bc) (range 8) (0, 0).
Definition yDir : Z := snd best.
Definition var : Z := (fst best - cost (Z.land (yDir + 4) 7)) / 2 ^ 10.
End Direction.

(** ** 7.15.3: the filter *)
Definition constrain (diff threshold damping : Z) : Z :=
  if threshold =? 0 then 0
  else let dampingAdj := Z.max 0 (damping - Z.log2 threshold) in
       let mag := Z.abs diff in
       Z.sgn diff * Clip3 0 mag (threshold - mag / 2 ^ dampingAdj).

Section Frame.
Variables (BitDepth NumPlanes MiRows MiCols : Z) (subsampling_x subsampling_y : Z)
  (CurrFrame : Z -> Z -> Z -> Z)        (* plane, row, column *)
  (Skips : Z -> Z -> bool) (cdef_idx : Z -> Z -> Z)   (* row and column of a 4x4 unit *)
  (CdefDamping : Z)
  (y_pri_strength y_sec_strength uv_pri_strength uv_sec_strength : Z -> Z).
Definition coeffShift : Z := BitDepth - 8.
Definition subX (plane : Z) : Z := if plane =? 0 then 0 else subsampling_x.
Definition subY (plane : Z) : Z := if plane =? 0 then 0 else subsampling_y.

(* the sample at a place, if the place is available (is_inside_filter_region) *)
Definition cdef_get_at (plane y x : Z) : option Z :=
  let candidateR := (y * 2 ^ subY plane) / 4 in
  let candidateC := (x * 2 ^ subX plane) / 4 in
  if (0 <=? candidateC) && (candidateC <? MiCols) && (0 <=? candidateR) && (candidateR <? MiRows)
  then Some (CurrFrame plane y x) else None.

(* the taps: tap weight, strength, row, column, in the order of the specification *)
Definition taps (priStr secStr dir y x : Z) : list (Z * Z * Z * Z) :=
  let par := Z.land (priStr / 2 ^ coeffShift) 1 in
  flat_map (fun k => flat_map (fun sign =>
      let tap t str d := let o := dir_off d k in
        (at2 t par k, str, y + sign * fst o, x + sign * snd o) in
      tap Cdef_Pri_Taps priStr dir ::
      map (fun dirOff => tap Cdef_Sec_Taps secStr (Z.land (dir + dirOff) 7)) [-2; 2])
    [-1; 1]) [0; 1].

Definition cdef_filter (plane priStr secStr damping dir y x : Z) : Z :=
  let v := CurrFrame plane y x in
  let avail := flat_map (fun t => match t with (w, str, ty, tx) =>
      match cdef_get_at plane ty tx with
      | Some p => [(w * constrain (p - v) str damping, p)]
      | None => [] end end) (taps priStr secStr dir y x) in
  let s := sum (map fst avail) in
  let mx := fold_left Z.max (map snd avail) v in
  let mn := fold_left Z.min (map snd avail) v in
  Clip3 mn mx (v + (8 + s - (if s <? 0 then 1 else 0)) / 2 ^ 4).

(** ** 7.15 and 7.15.1: the filtered frame, sample by sample.  [r] and [c] are the row and
    column, in 4x4 units, of the 8x8 block of luma the sample belongs to. *)
Definition CdefFrame (plane y x : Z) : Z :=
  let r := (y * 2 ^ subY plane) / 8 * 2 in
  let c := (x * 2 ^ subX plane) / 8 * 2 in
  let skip := Skips r c && Skips (r + 1) c && Skips r (c + 1) && Skips (r + 1) (c + 1) in
  if skip then CurrFrame plane y x
  else
    let idx := cdef_idx r c in
    let s i j := CurrFrame 0 (4 * r + i) (4 * c + j) / 2 ^ coeffShift - 128 in
    let yDir := yDir s in let var := var s in
    if plane =? 0 then
      let priStr := y_pri_strength idx * 2 ^ coeffShift in
      let secStr := y_sec_strength idx * 2 ^ coeffShift in
      let dir := if priStr =? 0 then 0 else yDir in
      let varStr := if negb (var / 2 ^ 6 =? 0) then Z.min (Z.log2 (var / 2 ^ 6)) 12 else 0 in
      let priStr := if negb (var =? 0) then (priStr * (4 + varStr) + 8) / 2 ^ 4 else 0 in
      cdef_filter 0 priStr secStr (CdefDamping + coeffShift) dir y x
    else
      let priStr := uv_pri_strength idx * 2 ^ coeffShift in
      let secStr := uv_sec_strength idx * 2 ^ coeffShift in
      let dir := if priStr =? 0 then 0
                 else nth (Z.to_nat yDir) (Cdef_Uv_Dir subsampling_x subsampling_y) 0 in
      cdef_filter plane priStr secStr (CdefDamping + coeffShift - 1) dir y x.
End Frame.
