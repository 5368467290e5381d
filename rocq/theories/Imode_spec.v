(** Syntax of the intra prediction mode of a block, from the AV1 specification:
    intra_frame_mode_info (5.11.7), intra_block_mode_info (5.11.22), intra_angle_info_y and
    intra_angle_info_uv (5.11.42, 5.11.43), read_cfl_alphas (5.11.45), palette_mode_info
    (5.11.46), filter_intra_mode_info (5.11.24), has_chroma from decode_block (5.11.5), and
    the choice of tables in 8.3.2.

    Left out: segmentation, skip flags, cdef, delta q, is_inter, intra block copy (off),
    which come before these elements.  Lossless is 0.  A palette or a filter intra mode
    would be followed by more elements; this reader stops there. *)
From Verif Require Import Sym.
Open Scope string_scope.
Open Scope Z_scope.
Open Scope list_scope.

(** Block sizes are numbered as in 6.10.4: BLOCK_4X4 0 ... BLOCK_128X128 15, BLOCK_4X16 16 ... BLOCK_64X16 21. *)
Definition at_ (l : list Z) (i : Z) : Z := nth (Z.to_nat i) l 0.
(** 9.3: Num_4x4_Blocks_Wide, Num_4x4_Blocks_High, Size_Group, Mi_Width_Log2, Mi_Height_Log2, Intra_Mode_Context *)
Definition Num_4x4_Blocks_Wide : list Z := [1; 1; 2; 2; 2; 4; 4; 4; 8; 8; 8; 16; 16; 16; 32; 32; 1; 4; 2; 8; 4; 16].
Definition Num_4x4_Blocks_High : list Z := [1; 2; 1; 2; 4; 2; 4; 8; 4; 8; 16; 8; 16; 32; 16; 32; 4; 1; 8; 2; 16; 4].
Definition Size_Group : list Z := [0; 0; 0; 1; 1; 1; 2; 2; 2; 3; 3; 3; 3; 3; 3; 3; 0; 0; 1; 1; 2; 2].
Definition Mi_Width_Log2 : list Z := [0; 0; 1; 1; 1; 2; 2; 2; 3; 3; 3; 4; 4; 4; 5; 5; 0; 2; 1; 3; 2; 4].
Definition Mi_Height_Log2 : list Z := [0; 1; 0; 1; 2; 1; 2; 3; 2; 3; 4; 3; 4; 5; 4; 5; 2; 0; 3; 1; 4; 2].
Definition Intra_Mode_Context : list Z := [0; 1; 2; 3; 4; 4; 4; 4; 3; 0; 1; 2; 0].
Definition Block_Width (s : Z) : Z := 4 * at_ Num_4x4_Blocks_Wide s.
Definition Block_Height (s : Z) : Z := 4 * at_ Num_4x4_Blocks_High s.
Definition BLOCK_8X8 : Z := 3.
Definition UV_CFL_PRED : Z := 13.

(** Frame and sequence parameters; frame_type: KEY 0, INTER 1, INTRA_ONLY 2, SWITCH 3 *)
Record params := mkParams {
  frame_type : Z; mono_chrome : bool; subsampling_x : bool; subsampling_y : bool;
  allow_screen_content_tools : bool; enable_filter_intra : bool }.
Definition FrameIsIntra (p : params) : bool := (frame_type p =? 0) || (frame_type p =? 2).

(** What is decoded: the modes, the angle deltas, the alphas; [m_uv] is absent without chroma *)
Record minfo := mkM { m_y : Z; m_ay : Z; m_uv : option (Z * (Z * Z) * Z); m_pal : Z * Z; m_filter : Z }.

Definition is_directional_mode (m : Z) : bool := (1 <=? m) && (m <=? 8).
Definition angle_info (MiSize m : Z) : reader Z :=
  if (BLOCK_8X8 <=? MiSize) && is_directional_mode m
  then rd a <- rsym "AngleDelta" [m - 1] 7; ret (a - 3) else ret 0.

Definition one_alpha (sign other : Z) : reader Z :=
  if sign =? 0 then ret 0
  else rd a <- rsym "CflAlpha" [(sign - 1) * 3 + other] 16; ret (if sign =? 1 then - (1 + a) else 1 + a).
Definition read_cfl_alphas : reader (Z * Z) :=
  rd s <- rsym "CflSign" [] 8;
  rd u <- one_alpha ((s + 1) / 3) ((s + 1) mod 3);
  rd v <- one_alpha ((s + 1) mod 3) ((s + 1) / 3);
  ret (u, v).

Section Block.
Variable p : params.
(* first row and column of the tile, position and size of the block, modes decoded so far *)
Variables MiRowStart MiColStart MiRow MiCol MiSize : Z.
Variable YModes : Z -> Z -> Z.

Definition HasChroma : bool :=
  if (at_ Num_4x4_Blocks_High MiSize =? 1) && subsampling_y p && Z.even MiRow then false
  else if (at_ Num_4x4_Blocks_Wide MiSize =? 1) && subsampling_x p && Z.even MiCol then false
  else negb (mono_chrome p).
Definition AvailU : bool := MiRowStart <=? MiRow - 1.
Definition AvailL : bool := MiColStart <=? MiCol - 1.
Definition cflAllowed : bool := Z.max (Block_Width MiSize) (Block_Height MiSize) <=? 32.

Definition y_mode : reader Z :=
  if FrameIsIntra p then
    rsym "YModeKF" [at_ Intra_Mode_Context (if AvailU then YModes (MiRow - 1) MiCol else 0);
                    at_ Intra_Mode_Context (if AvailL then YModes MiRow (MiCol - 1) else 0)] 13
  else rsym "YMode" [at_ Size_Group MiSize] 13.
Definition uv_info (YMode : Z) : reader (Z * (Z * Z) * Z) :=
  rd uv <- (if cflAllowed then rsym "UVModeCflAllowed" [YMode] 14 else rsym "UVModeCflNotAllowed" [YMode] 13);
  rd al <- (if uv =? UV_CFL_PRED then read_cfl_alphas else ret (0, 0));
  rd a <- angle_info MiSize uv;
  ret (uv, al, a).
(* PaletteSizes of the neighbours are 0, as no palette is ever read here *)
Definition palette_mode_info (YMode : Z) (uv : option (Z * (Z * Z) * Z)) : reader (Z * Z) :=
  rd y <- (if YMode =? 0 then rsym "PaletteYMode" [at_ Mi_Width_Log2 MiSize + at_ Mi_Height_Log2 MiSize - 2; 0] 2 else ret 0);
  if negb (y =? 0) then fail else
  rd c <- (match uv with Some (0, _, _) => rsym "PaletteUVMode" [0] 2 | _ => ret 0 end);
  if negb (c =? 0) then fail else ret (y, c).
Definition filter_intra_mode_info (YMode : Z) : reader Z :=
  if enable_filter_intra p && (YMode =? 0) && (Z.max (Block_Width MiSize) (Block_Height MiSize) <=? 32)
  then rd f <- rsym "FilterIntra" [MiSize] 2; if negb (f =? 0) then fail else ret f
  else ret 0.
Definition intra_mode_info : reader minfo :=
  rd y <- y_mode;
  rd ay <- angle_info MiSize y;
  rd uv <- (if HasChroma then rd i <- uv_info y; ret (Some i) else ret None);
  rd pal <- (if (BLOCK_8X8 <=? MiSize) && (Block_Width MiSize <=? 64) && (Block_Height MiSize <=? 64)
                && allow_screen_content_tools p
             then palette_mode_info y uv else ret (0, 0));
  rd f <- filter_intra_mode_info y;
  ret (mkM y ay uv pal f).
End Block.
