(** Model of the loop-restoration unit layout (/repo/src/lrf.rs:1321-1477). *)
From Verif Require Import Base Bits Tile_model.

(** `usize::trailing_zeros` of a positive number *)
Fixpoint pos_tz (p : positive) : Z := match p with xO q => pos_tz q + 1 | _ => 0 end.
Definition tz (n : Z) : Z := match n with Zpos p => pos_tz p | _ => 64 end.

(** One plane: unit size, superblocks per unit (log2), units *)
Record lrf_plane := { lp_unit : Z; lp_h_shift : Z; lp_v_shift : Z; lp_cols : Z; lp_rows : Z }.

(** lrf.rs:1329-1376: the shifts chosen before tiling is considered.
    [large]: enable_large_lru && enable_restoration.  The assertion of lines
    1332-1335 is the panic. *)
Definition lrf_shifts (large : bool) (q w h xdec ydec : Z) : option (Z * Z) :=
  let decimate := if (0 <? xdec) && (0 <? ydec) then 1 else 0 in
  if large then
    if negb ((1 <? w) && (1 <? h)) then None else
    let base := if 200 <? q then 0 else if 160 <? q then 1 else 2 in
    let chroma :=
      if 0 <? decimate then
        if base =? 2 then 1
        else
          let unit := 2 ^ (8 - base) in
          let cw := w / 2 ^ xdec - 1 in
          let ch := h / 2 ^ ydec - 1 in
          let unshifted := (cw mod unit <=? unit / 2) || (ch mod unit <=? unit / 2) in
          let shifted := (cw mod (unit / 2) <=? unit / 4) || (ch mod (unit / 2) <=? unit / 4) in
          if unshifted && negb shifted then 1 else 0
      else 0 in
    Some (base, base + chroma)
  else Some (2, 2 + decimate).

(** lrf.rs:1378-1477.  Underflow of an unsigned subtraction is [None]. *)
Definition lrf_layout (large : bool) (q w h xdec ydec : Z) (t : tiling) : option (lrf_plane * lrf_plane) :=
  let y_sb := 6 in
  let uv_h := y_sb - xdec in
  let uv_v := y_sb - ydec in
  do sh <- lrf_shifts large q w h xdec ydec ;;
  let y_unit0 := 2 ^ (8 - fst sh) in
  let uv_unit0 := 2 ^ (8 - snd sh) in
  let multi := (1 <? t_cols t) || (1 <? t_rows t) in
  let zh := tz (t_tw t) in
  let zv := tz (t_th t) in
  let y_unit1 := if multi then Z.min y_unit0 (2 ^ (y_sb + Z.min zh zv)) else y_unit0 in
  let uv_unit1 := if multi then Z.min uv_unit0 (Z.min (2 ^ (uv_h + zh)) (2 ^ (uv_v + zv))) else uv_unit0 in
  let tie := (ydec =? 0) && negb (y_unit1 =? uv_unit1) in
  let y_unit := if tie then Z.min uv_unit1 y_unit1 else y_unit1 in
  let uv_unit := if tie then y_unit else uv_unit1 in
  let y_log := Z.log2 y_unit in
  let uv_log := Z.log2 uv_unit in
  if (y_log <? y_sb) || (uv_log <? uv_h) || (uv_log <? uv_v) then None else
  let units n d u := Z.max ((((n + 2 ^ d / 2) / 2 ^ d) + u / 2) / u) 1 in
  Some ({| lp_unit := y_unit; lp_h_shift := y_log - y_sb; lp_v_shift := y_log - y_sb;
           lp_cols := Z.max ((w + y_unit / 2) / y_unit) 1; lp_rows := Z.max ((h + y_unit / 2) / y_unit) 1 |},
        {| lp_unit := uv_unit; lp_h_shift := uv_log - uv_h; lp_v_shift := uv_log - uv_v;
           lp_cols := units w xdec uv_unit; lp_rows := units h ydec uv_unit |}).

(** ** The tile's part of a restoration plane *)

(** [TileRestorationPlane]: shifts of the plane, the tile's units
    (first unit, counts), and the superblocks of the frame *)
Record tplane := { tp_h : Z; tp_v : Z; tp_ux : Z; tp_uy : Z; tp_cols : Z; tp_rows : Z; tp_fcols : Z; tp_frows : Z }.

(** [TileRestorationState::new] (tile_restoration_state.rs:325-356) for one
    plane; the superblock counts of the tile are those of tile_state.rs:150-151,
    [fc], [fr] are fi.sb_width, fi.sb_height.  The boolean collects the
    debug_asserts. *)
Definition tile_plane (fc fr : Z) (v : tile_view) (p : lrf_plane) : tplane * bool :=
  let '(ux, un, okx) := units_region (lp_h_shift p) (lp_cols p) (v_sbx v) (align_shift sb_log2 (r_w (v_rect v))) in
  let '(uy, um, oky) := units_region (lp_v_shift p) (lp_rows p) (v_sby v) (align_shift sb_log2 (r_h (v_rect v))) in
  ({| tp_h := lp_h_shift p; tp_v := lp_v_shift p; tp_ux := ux; tp_uy := uy; tp_cols := un; tp_rows := um;
      tp_fcols := fc; tp_frows := fr |}, okx && oky).

(** [restoration_unit_index] (tile_restoration_state.rs:196-219); [x], [y] are
    tile superblock offsets.  The subtractions cannot underflow: a stretched
    offset is at or past a positive number of units. *)
Definition ru_index (p : tplane) (x y : Z) (stretch : bool) : option (Z * Z) :=
  if (0 <? tp_rows p) && (0 <? tp_cols p) then
    let xs := (x <? tp_fcols p) && (tp_cols p <=? x / 2 ^ tp_h p) in
    let ys := (y <? tp_frows p) && (tp_rows p <=? y / 2 ^ tp_v p) in
    if (xs || ys) && negb stretch then None
    else
      let ux := x / 2 ^ tp_h p - (if xs then 1 else 0) in
      let uy := y / 2 ^ tp_v p - (if ys then 1 else 0) in
      if (ux <? tp_cols p) && (uy <? tp_rows p) then Some (ux, uy) else None
  else None.

(** [restoration_unit_last_sb_for_rdo] (tile_restoration_state.rs:244-264);
    [gx], [gy]: the tile's superblock offset *)
Definition last_sb (p : tplane) (gx gy x y : Z) : bool :=
  let xs := tp_cols p <=? x / 2 ^ tp_h p in
  let ys := tp_rows p <=? y / 2 ^ tp_v p in
  let lx := ((x mod 2 ^ tp_h p =? 2 ^ tp_h p - 1) && negb xs) || (gx + x =? tp_fcols p - 1) in
  let ly := ((y mod 2 ^ tp_v p =? 2 ^ tp_v p - 1) && negb ys) || (gy + y =? tp_frows p - 1) in
  lx && ly.

(** ** The superblock queue *)

(** What is appended to the tile's bitstream, in order: the parameters of a
    restoration unit (plane, unit column and row in the frame), then the three
    recorded parts of a superblock (tile offsets) *)
Inductive lf_event :=
| EvLrf (pli ux uy : Z)
| EvPre (x y : Z)
| EvCdef (x y : Z)
| EvPost (x y : Z).

(** [SBSQueueEntry] (encoder.rs:3367-3373); the recorded writers and
    [cdef_coded] are a function of the position *)
Record qentry := { q_x : Z; q_y : Z; q_idx : list Z }.

Record lfq := { lf_q : list qentry; lf_ready : list Z; lf_coded : list Z; lf_out : list lf_event }.

(** encoder.rs:3438-3449 with write_lrf (frame_header.rs:171-176): the planes
    whose unit has not been coded yet *)
Fixpoint code_planes (pli : Z) (ps : list tplane) (idx coded : list Z) (x y : Z) : list Z * list lf_event :=
  match ps, idx, coded with
  | p :: ps, i :: idx, c :: coded =>
      let '(cs, evs) := code_planes (pli + 1) ps idx coded x y in
      if negb (i =? -1) && (c <? i) then
        (i :: cs, match ru_index p x y true with
                  | Some (ux, uy) => [EvLrf pli (tp_ux p + ux) (tp_uy p + uy)]
                  | None => [] end ++ evs)
      else (c :: cs, evs)
  | _, _, _ => ([], [])
  end.

(** One entry of the queue (encoder.rs:3399-3458); [lrf]: !allow_intrabc &&
    enable_restoration.  The RDO of the filters (3401-3436) only changes
    parameters and is not modelled. *)
Definition code_entry (lrf : bool) (cdef : Z -> Z -> bool) (ps : list tplane) (coded : list Z) (e : qentry) : list Z * list lf_event :=
  let '(coded', evs) := if lrf then code_planes 0 ps (q_idx e) coded (q_x e) (q_y e) else (coded, []) in
  (coded', evs ++ EvPre (q_x e) (q_y e) ::
           (if cdef (q_x e) (q_y e) then [EvCdef (q_x e) (q_y e); EvPost (q_x e) (q_y e)] else [])).

(** [check_lf_queue] (encoder.rs:3375-3465) *)
Fixpoint drain (lrf : bool) (cdef : Z -> Z -> bool) (ps : list tplane) (ready : list Z) (q : list qentry) (coded : list Z)
  : list qentry * list Z * list lf_event :=
  match q with
  | [] => ([], coded, [])
  | e :: q' =>
      if forallb (fun ir => fst ir <=? snd ir) (combine (q_idx e) ready) then
        let '(coded', evs) := code_entry lrf cdef ps coded e in
        let '(q'', coded'', evs') := drain lrf cdef ps ready q' coded' in
        (q'', coded'', evs ++ evs')
      else (q, coded, [])
  end.
Definition check_lf_queue (lrf : bool) (cdef : Z -> Z -> bool) (ps : list tplane) (s : lfq) : lfq :=
  let '(q, coded, evs) := drain lrf cdef ps (lf_ready s) (lf_q s) (lf_coded s) in
  {| lf_q := q; lf_ready := lf_ready s; lf_coded := coded; lf_out := lf_out s ++ evs |}.

(** encoder.rs:3546-3568, one plane: the queue index of the superblock, and
    the new value of last_lru_ready and whether the queue is to be checked *)
Definition lru_index (p : tplane) (x y : Z) : Z :=
  match ru_index p x y false with
  | Some (ux, uy) => uy * tp_cols p + ux
  | None => -1
  end.
Definition now_ready (p : tplane) (gx gy x y : Z) : bool :=
  match ru_index p x y false with Some _ => last_sb p gx gy x y | None => false end.
Definition wants_check (p : tplane) (gx gy x y : Z) : bool :=
  match ru_index p x y false with Some _ => last_sb p gx gy x y | None => true end.

(** One superblock of [encode_tile] (encoder.rs:3489-3585); [delayed]:
    enable_delayed_loopfilter_rdo *)
Definition lf_step (lrf delayed : bool) (cdef : Z -> Z -> bool) (ps : list tplane) (gx gy : Z) (s : lfq) (xy : Z * Z) : lfq :=
  let '(x, y) := xy in
  let e := {| q_x := x; q_y := y; q_idx := map (fun p => lru_index p x y) ps |} in
  let ready := map (fun pr => if now_ready (fst pr) gx gy x y then lru_index (fst pr) x y else snd pr) (combine ps (lf_ready s)) in
  let s' := {| lf_q := lf_q s ++ [e]; lf_ready := ready; lf_coded := lf_coded s; lf_out := lf_out s |} in
  if existsb (fun p => wants_check p gx gy x y) ps && negb delayed then check_lf_queue lrf cdef ps s' else s'.

(** The two loops of [encode_tile] and the final assertion
    (encoder.rs:3477-3673) *)
Definition zrange (a n : Z) : list Z := map (fun i => a + Z.of_nat i) (seq 0 (Z.to_nat n)).
Definition raster (X Y : Z) : list (Z * Z) := flat_map (fun y => map (fun x => (x, y)) (zrange 0 X)) (zrange 0 Y).
Definition encode_tile (lrf delayed : bool) (cdef : Z -> Z -> bool) (ps : list tplane) (gx gy X Y : Z) : option (list lf_event) :=
  let s0 := {| lf_q := []; lf_ready := map (fun _ => -1) ps; lf_coded := map (fun _ => -1) ps; lf_out := [] |} in
  let s := fold_left (lf_step lrf delayed cdef ps gx gy) (raster X Y) s0 in
  let s := if delayed then check_lf_queue lrf cdef ps s else s in
  match lf_q s with [] => Some (lf_out s) | _ :: _ => None end.

(** [write_frame_lrf] (/repo/src/header.rs:1121-1163); [types] has one entry
    per plane (one plane for monochrome), [sb128] is
    use_128x128_superblock, [yu] and [uvu] the unit sizes of planes 0 and 1. *)
Definition w_frame_lrf (enabled intrabc sb128 cs420 : bool) (types : list Z) (yu uvu : Z) : wres :=
  w_if (enabled && negb intrabc)
    (w_list (fun t => w_bits 2 t) types >>>
     w_if (existsb (fun t => negb (t =? 0)) types)
       (w_if (negb sb128) (w_bits 1 (b2z (64 <? yu))) >>>
        w_if (64 <? yu) (w_bits 1 (b2z (128 <? yu))) >>>
        w_if (existsb (fun t => negb (t =? 0)) (tl types) && cs420) (w_bits 1 (b2z (uvu <? yu))))).
