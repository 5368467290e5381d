(** What the AV1 specification says about tiles, independent of the encoder. *)
From Verif Require Import Base Bits.

(** Section 5.9.16, tile_log2(blkSize, target): the smallest k such that
    blkSize << k is greater than or equal to target. *)
Definition is_tile_log2 (blk target k : Z) : Prop :=
  0 <= k /\ target <= blk * 2 ^ k /\ forall j, 0 <= j < k -> blk * 2 ^ j < target.
Fixpoint s_tile_log2 (fuel : nat) (blk target k : Z) : Z :=
  match fuel with
  | O => k
  | S f => if blk * 2 ^ k <? target then s_tile_log2 f blk target (k + 1) else k
  end.

(** Section 5.9.15, tile_info( ), with use_128x128_superblock = 0 (sbShift = 4,
    sbSize = 6 + ... ), as a parser. *)
Record tile_info := {
  ti_col_starts : list Z;       (* MiColStarts[0..TileCols] *)
  ti_row_starts : list Z;       (* MiRowStarts[0..TileRows] *)
  ti_cols_log2 : Z; ti_rows_log2 : Z;
  ti_context_update_tile_id : Z;
  ti_tile_size_bytes : option Z
}.

Definition s_tl2 (blk target : Z) : Z := s_tile_log2 64 blk target 0.

(** while ( v < max ) { increment f(1); if ( increment == 1 ) v++ else break } *)
Fixpoint p_increment (fuel : nat) (v max : Z) : parser Z :=
  match fuel with
  | O => p_fail
  | S f => if v <? max then b <- p_flag ;; if b then p_increment f (v + 1) max else p_ret v else p_ret v
  end.

(** for ( startSb = 0; startSb < total; i++ ) { Starts[ i ] = startSb << 4; startSb += size } *)
Fixpoint s_uniform_starts (fuel : nat) (size total startSb : Z) : list Z :=
  match fuel with
  | O => []
  | S f => if startSb <? total then (startSb * 16) :: s_uniform_starts f size total (startSb + size) else []
  end.

(** the explicit loops: starts and the widest tile *)
Fixpoint p_explicit_starts (fuel : nat) (limit total startSb widest : Z) : parser (list Z * Z) :=
  match fuel with
  | O => p_fail
  | S f =>
      if startSb <? total then
        m1 <- p_ns (Z.min (total - startSb) limit) ;;
        let sizeSb := m1 + 1 in
        r <- p_explicit_starts f limit total (startSb + sizeSb) (Z.max sizeSb widest) ;;
        p_ret ((startSb * 16) :: fst r, snd r)
      else p_ret ([], widest)
  end.

Definition p_tile_info (frame_width frame_height : Z) : parser tile_info :=
  let miCols := 2 * ((frame_width + 7) / 8) in
  let miRows := 2 * ((frame_height + 7) / 8) in
  let sbCols := (miCols + 15) / 16 in
  let sbRows := (miRows + 15) / 16 in
  let maxTileWidthSb := 4096 / 64 in
  let maxTileAreaSb := 4096 * 2304 / 4096 in
  let minLog2TileCols := s_tl2 maxTileWidthSb sbCols in
  let maxLog2TileCols := s_tl2 1 (Z.min sbCols 64) in
  let maxLog2TileRows := s_tl2 1 (Z.min sbRows 64) in
  let minLog2Tiles := Z.max minLog2TileCols (s_tl2 maxTileAreaSb (sbRows * sbCols)) in
  let fuel := S (Z.to_nat (sbCols + sbRows)) in
  uniform <- p_flag ;;
  g <- (if uniform then
          colsLog2 <- p_increment 64 minLog2TileCols maxLog2TileCols ;;
          let tileWidthSb := (sbCols + 2 ^ colsLog2 - 1) / 2 ^ colsLog2 in
          let minLog2TileRows := Z.max (minLog2Tiles - colsLog2) 0 in
          rowsLog2 <- p_increment 64 minLog2TileRows maxLog2TileRows ;;
          let tileHeightSb := (sbRows + 2 ^ rowsLog2 - 1) / 2 ^ rowsLog2 in
          p_ret (s_uniform_starts fuel tileWidthSb sbCols 0, s_uniform_starts fuel tileHeightSb sbRows 0,
                 colsLog2, rowsLog2)
        else
          cw <- p_explicit_starts fuel maxTileWidthSb sbCols 0 0 ;;
          let colsLog2 := s_tl2 1 (zlen (fst cw)) in
          let area := if 0 <? minLog2Tiles then (sbRows * sbCols) / 2 ^ (minLog2Tiles + 1) else sbRows * sbCols in
          let maxTileHeightSb := Z.max (area / snd cw) 1 in
          rw <- p_explicit_starts fuel maxTileHeightSb sbRows 0 0 ;;
          p_ret (fst cw, fst rw, colsLog2, s_tl2 1 (zlen (fst rw)))) ;;
  match g with
  | (cs, rs, cl, rl) =>
      (if (0 <? cl) || (0 <? rl) then
         id <- p_f (rl + cl) ;;
         b <- p_f 2 ;;
         p_ret {| ti_col_starts := cs ++ [miCols]; ti_row_starts := rs ++ [miRows]; ti_cols_log2 := cl; ti_rows_log2 := rl;
                  ti_context_update_tile_id := id; ti_tile_size_bytes := Some (b + 1) |}
       else
         p_ret {| ti_col_starts := cs ++ [miCols]; ti_row_starts := rs ++ [miRows]; ti_cols_log2 := cl; ti_rows_log2 := rl;
                  ti_context_update_tile_id := 0; ti_tile_size_bytes := None |})
  end.
