(** Where an AV1 decoder reads loop-restoration parameters, from the
    specification (5.11.57 read_lr, 7.17 / 5.9.20), without superres. *)
From Verif Require Import Base Bits Lrf_model.

(** Round2( x, n ) *)
Definition s_round2 (x n : Z) : Z := if n =? 0 then x else (x + 2 ^ (n - 1)) / 2 ^ n.
(** count_units_in_frame( unitSize, frameSize ) = Max( (frameSize + (unitSize >> 1)) / unitSize, 1 ) *)
Definition s_count_units (unitSize frameSize : Z) : Z := Z.max ((frameSize + unitSize / 2) / unitSize) 1.

(** start, start + 1, ... , end - 1 *)
Definition s_upto (a b : Z) : list Z := zrange a (b - a).

(** One dimension of read_lr for a superblock starting at [pos] (in units of
    4 luma samples): the units whose parameters are read.
      unitStart = ( pos * ( MI_SIZE >> ss ) + unitSize - 1 ) / unitSize
      unitEnd = ( ( pos + 16 ) * ( MI_SIZE >> ss ) + unitSize - 1 ) / unitSize
      unitEnd = Min( unitEnd, units ) *)
Definition s_units (unitSize ss frameSize pos : Z) : list Z :=
  let units := s_count_units unitSize (s_round2 frameSize ss) in
  let mi := 4 / 2 ^ ss in
  s_upto ((pos * mi + unitSize - 1) / unitSize) (Z.min (((pos + 16) * mi + unitSize - 1) / unitSize) units).

(** A plane: unit size and subsampling *)
Record s_plane := { sp_unit : Z; sp_ssx : Z; sp_ssy : Z }.

(** read_lr( r, c, BLOCK_64X64 ) *)
Fixpoint s_read_lr (pli : Z) (planes : list s_plane) (W H r c : Z) : list lf_event :=
  match planes with
  | [] => []
  | p :: planes =>
      flat_map (fun urow => map (fun ucol => EvLrf pli ucol urow) (s_units (sp_unit p) (sp_ssx p) W c))
               (s_units (sp_unit p) (sp_ssy p) H r)
      ++ s_read_lr (pli + 1) planes W H r c
  end.

(** decode_tile: superblocks in raster order between the tile's boundaries
    (in units of 4 luma samples); the loop filter parameters come first, then
    the superblock itself, whose CDEF index is in the middle if it is present *)
Definition s_positions (a b : Z) : list Z := map (fun k => a + 16 * k) (zrange 0 ((b - a + 15) / 16)).
Definition s_decode_tile (lrf : bool) (cdef : Z -> Z -> bool) (planes : list s_plane) (W H rStart rEnd cStart cEnd : Z) : list lf_event :=
  flat_map (fun r => flat_map (fun c =>
      let x := (c - cStart) / 16 in let y := (r - rStart) / 16 in
      (if lrf then s_read_lr 0 planes W H r c else []) ++
      EvPre x y :: (if cdef x y then [EvCdef x y; EvPost x y] else []))
    (s_positions cStart cEnd)) (s_positions rStart rEnd).

(** 5.9.20, lr_params( ) for a frame that is not lossless: per plane the value
    of lr_type, and LoopRestorationSize[ 0 ], [ 1 ] if restoration is used.
    RESTORATION_TILESIZE_MAX is 256. *)
Definition s_lr_params (enabled intrabc sb128 ssx ssy : bool) (num_planes : Z) : parser (option (list Z * option (Z * Z))) :=
  if intrabc || negb enabled then p_ret None else
  types <- p_repeat (Z.to_nat num_planes) (p_f 2) ;;
  let uses := existsb (fun t => negb (t =? 0)) types in
  let uses_chroma := existsb (fun t => negb (t =? 0)) (tl types) in
  if negb uses then p_ret (Some (types, None)) else
  shift <- (if sb128 then s <- p_f 1 ;; p_ret (s + 1)
            else s <- p_f 1 ;; if s =? 0 then p_ret s else e <- p_f 1 ;; p_ret (s + e)) ;;
  uv <- (if ssx && ssy && uses_chroma then p_f 1 else p_ret 0) ;;
  let size := Z.shiftr 256 (2 - shift) in
  p_ret (Some (types, Some (size, Z.shiftr size uv))).
