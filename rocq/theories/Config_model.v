(** Model of configuration validation (/repo/src/api/config/mod.rs:294-440)
    and of the parts of `Sequence::new` that can panic. *)
From Verif Require Import Base Bits Tile_model.

Inductive chroma := Cs420 | Cs422 | Cs444 | Cs400.
Definition chroma_eqb (a b : chroma) : bool :=
  match a, b with
  | Cs420, Cs420 | Cs422, Cs422 | Cs444, Cs444 | Cs400, Cs400 => true
  | _, _ => false
  end.

(** The fields of `Config`/`EncoderConfig` that are looked at.
    [vc_render_w], [vc_render_h] stand for the result of `render_size()`
    (api/config/encoder.rs:204-212, floating point). *)
Record vconfig := {
  vc_width : Z; vc_height : Z; vc_still : bool;
  vc_sar_num : Z; vc_sar_den : Z; vc_render_w : Z; vc_render_h : Z;
  vc_rdo_lookahead : Z; vc_max_kf : Z;
  vc_tile_cols : Z; vc_tile_rows : Z; vc_tiles : Z;
  vc_tb_num : Z; vc_tb_den : Z;
  vc_reservoir : option Z; vc_switch_interval : Z; vc_low_latency : bool;
  vc_timing_info : bool;
  vc_srgb : option bool; (* color_description and is_srgb_triple() *)
  vc_full_range : bool; vc_chroma : chroma;
  vc_level : option Z;
  vc_emit_pass : bool; vc_summary : bool; vc_bitrate : Z
}.

(** The unsigned types of the fields: usize, u64 *)
Definition typed (c : vconfig) : Prop :=
  0 <= vc_width c < 2 ^ 64 /\ 0 <= vc_height c < 2 ^ 64 /\ 0 <= vc_tile_cols c < 2 ^ 64 /\ 0 <= vc_tile_rows c < 2 ^ 64 /\
  0 <= vc_tiles c < 2 ^ 64 /\ 0 <= vc_tb_num c < 2 ^ 64 /\ 0 <= vc_tb_den c < 2 ^ 64 /\
  match vc_level c with Some l => 0 <= l < 256 | None => True end.

(** /repo/src/levels.rs *)
Definition AV1_LEVEL_DEFINED : list bool :=
  [true; true; false; false; true; true; false; false; true; true; false; false; true; true; true; true;
   true; true; true; true; false; false; false; false; false; false; false; false; false; false; false; false].
Definition AV1_LEVEL_MAX_PIC_SIZE : list Z :=
  [147456; 278784; 0; 0; 665856; 1065024; 0; 0; 2359296; 23592960; 0; 0; 8912896; 8912896; 8912896; 8912896;
   35651584; 35651584; 35651584; 35651584; 0; 0; 0; 0; 0; 0; 0; 0; 0; 0; 0; 0].
Definition AV1_LEVEL_MAX_H_SIZE : list Z :=
  [2048; 2816; 0; 0; 4352; 5504; 0; 0; 6144; 6144; 0; 0; 8192; 8192; 8192; 8192;
   16384; 16384; 16384; 16384; 0; 0; 0; 0; 0; 0; 0; 0; 0; 0; 0; 0].
Definition AV1_LEVEL_MAX_V_SIZE : list Z :=
  [1152; 1584; 0; 0; 2448; 3096; 0; 0; 3456; 3456; 0; 0; 4352; 4352; 4352; 4352;
   8704; 8704; 8704; 8704; 0; 0; 0; 0; 0; 0; 0; 0; 0; 0; 0; 0].
Definition AV1_LEVEL_MAX_DISPLAY_RATE : list Z :=
  [4423680; 8363520; 0; 0; 19975680; 31950720; 0; 0; 70778880; 141557760; 0; 0; 267386880; 534773760; 1069547520; 1069547520;
   1069547520; 2139095040; 4278190080; 4278190080; 0; 0; 0; 0; 0; 0; 0; 0; 0; 0; 0; 0].

(** [check_tile_log2] (mod.rs:204-212) *)
Definition check_tile_log2 (n : Z) : bool :=
  match tile_log2 1 n with
  | None => false
  | Some k => (2 ^ k - n =? 0) || (n =? 0)
  end.

Inductive invalid :=
| InvalidWidth | InvalidHeight | InvalidAspectRatioNum | InvalidAspectRatioDen
| InvalidRenderWidth | InvalidRenderHeight | InvalidRdoLookaheadFrames | InvalidMaxKeyFrameInterval
| InvalidTileCols | InvalidTileRows | InvalidFrameRateNum | InvalidFrameRateDen
| InvalidReservoirFrameDelay | InvalidSwitchFrameInterval | InvalidOptionWithStillPicture
| ColorConfigurationMismatch | LevelUndefined | LevelConstraintsExceeded | TargetBitrateNeeded.

(** `if b { return Err(e) } rest` *)
Definition check (b : bool) (e : invalid) (rest : option invalid) : option invalid :=
  if b then Some e else rest.

Definition bad_size (still : bool) (n : Z) : bool :=
  (still && (n <? 1)) || (negb still && (n <? 16)) || (65535 <? n).

(** [Config::validate] (mod.rs:299-440): [None] is `Ok(())`.  usize and u64
    are 64 bits; the product of line 419 does not overflow once the sizes and
    the time base have been checked. *)
Definition validate (c : vconfig) : option invalid :=
  check (bad_size (vc_still c) (vc_width c)) InvalidWidth (
  check (bad_size (vc_still c) (vc_height c)) InvalidHeight (
  check (vc_sar_num c =? 0) InvalidAspectRatioNum (
  check (vc_sar_den c =? 0) InvalidAspectRatioDen (
  check ((vc_render_w c =? 0) || (65535 <? vc_render_w c)) InvalidRenderWidth (
  check ((vc_render_h c =? 0) || (65535 <? vc_render_h c)) InvalidRenderHeight (
  check ((2 ^ 64 - 2 <? vc_rdo_lookahead c) || (vc_rdo_lookahead c <? 1)) InvalidRdoLookaheadFrames (
  check ((2 ^ 31 - 1) / 3 <? vc_max_kf c) InvalidMaxKeyFrameInterval (
  check (negb (check_tile_log2 (vc_tile_cols c))) InvalidTileCols (
  check (negb (check_tile_log2 (vc_tile_rows c))) InvalidTileRows (
  check ((vc_tb_num c =? 0) || (2 ^ 32 - 1 <? vc_tb_num c)) InvalidFrameRateNum (
  check ((vc_tb_den c =? 0) || (2 ^ 32 - 1 <? vc_tb_den c)) InvalidFrameRateDen (
  check (match vc_reservoir c with Some d => negb ((12 <=? d) && (d <=? 131072)) | None => false end) InvalidReservoirFrameDelay (
  check ((0 <? vc_switch_interval c) && negb (vc_low_latency c)) InvalidSwitchFrameInterval (
  check (vc_timing_info c && vc_still c) InvalidOptionWithStillPicture (
  check (match vc_srgb c with
         | Some true => negb (chroma_eqb (vc_chroma c) Cs400) && (negb (vc_full_range c) || negb (chroma_eqb (vc_chroma c) Cs444))
         | _ => false end) ColorConfigurationMismatch (
  match vc_level c with
  | None => check false LevelUndefined
  | Some l =>
      fun rest =>
      check (31 <? l) LevelUndefined (
      if l <? 31 then
        let i := Z.to_nat l in
        check (negb (nth i AV1_LEVEL_DEFINED false)) LevelUndefined (
        check (nth i AV1_LEVEL_MAX_PIC_SIZE 0 <? vc_width c * vc_height c) LevelConstraintsExceeded (
        check (nth i AV1_LEVEL_MAX_H_SIZE 0 <? vc_width c) LevelConstraintsExceeded (
        check (nth i AV1_LEVEL_MAX_V_SIZE 0 <? vc_height c) LevelConstraintsExceeded (
        check (nth i AV1_LEVEL_MAX_DISPLAY_RATE 0 <? div_ceil (vc_width c * vc_height c * vc_tb_num c) (vc_tb_den c))
          LevelConstraintsExceeded rest))))
      else rest)
  end (
  check ((vc_emit_pass c || vc_summary c) && (vc_bitrate c =? 0)) TargetBitrateNeeded None))))))))))))))))).

(** The part of [Sequence::new] (/repo/src/encoder.rs:206-280) that may panic:
    the two size assertions and the tiling.  [rl] is the value of the floating
    point rate limit (tiler.rs:88-93). *)
Definition sequence_new (c : vconfig) (rl : Z) : option tiling :=
  let bits n := if n =? 0 then 0 else Z.log2 n + 1 in
  if (16 <? bits (u32 (vc_width c))) || (16 <? bits (u32 (vc_height c))) then None else
  sequence_tiling (vc_width c) (vc_height c) rl (vc_tile_cols c) (vc_tile_rows c) (vc_tiles c)
    (chroma_eqb (vc_chroma c) Cs422).
