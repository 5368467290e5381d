(** Model of the writing of intra modes: the intra part of encode_block_post_cdef
    (/repo/src/encoder.rs:2082-2128), the writers of /repo/src/context/block_unit.rs:700-793,
    CFLParams and write_cfl_alphas (/repo/src/context/partition_unit.rs:61-128, 249-261),
    has_chroma (/repo/src/context/transform_unit.rs:108-121).

    Simplifications: block sizes and modes are the numbers of the enum members
    (partition.rs:130-154, predict.rs:75-112); the tables are named as the specification
    names them; the modes of the tile's blocks are a function of row and column. *)
From Verif Require Import Sym.
Open Scope string_scope.
Open Scope Z_scope.
Open Scope list_scope.

Definition nth_ (l : list Z) (i : Z) : option Z :=
  if (0 <=? i) && (i <? zlen l) then Some (nth (Z.to_nat i) l 0) else None.
Definition get (l : list Z) (i : Z) : Z := nth (Z.to_nat i) l 0.

(** partition.rs:234-303: width_log2, height_log2, width, height, width_mi, height_mi *)
Definition width_log2 (s : Z) : Z := get [2; 2; 3; 3; 3; 4; 4; 4; 5; 5; 5; 6; 6; 6; 7; 7; 2; 4; 3; 5; 4; 6] s.
Definition height_log2 (s : Z) : Z := get [2; 3; 2; 3; 4; 3; 4; 5; 4; 5; 6; 5; 6; 7; 6; 7; 4; 2; 5; 3; 6; 4] s.
Definition width (s : Z) : Z := Z.shiftl 1 (width_log2 s).
Definition height (s : Z) : Z := Z.shiftl 1 (height_log2 s).
Definition width_mi (s : Z) : Z := Z.shiftr (width s) 2.
Definition height_mi (s : Z) : Z := Z.shiftr (height s) 2.

(** partition.rs:165-179: partial_cmp; [None] if not comparable *)
Definition partial_cmp (a b : Z) : option comparison :=
  match width a ?= width b, height a ?= height b with
  | Gt, Lt | Lt, Gt => None
  | Eq, Eq => Some Eq
  | Gt, _ | _, Gt => Some Gt
  | Lt, _ | _, Lt => Some Lt
  end.
Definition bs_ge (a b : Z) : bool := match partial_cmp a b with Some Gt | Some Eq => true | _ => false end.
Definition bs_le (a b : Z) : bool := match partial_cmp a b with Some Lt | Some Eq => true | _ => false end.
(** partition.rs:228-231: cfl_allowed *)
Definition cfl_allowed (s : Z) : bool := bs_le s 9.

(** transform_unit.rs:108-121: has_chroma; [x], [y] relative to the tile *)
Definition has_chroma (x y s : Z) (xdec ydec : Z) (cs400 : bool) : bool :=
  if cs400 then false
  else ((Z.land x 1 =? 1) || (Z.land (width_mi s) 1 =? 0) || (xdec =? 0))
       && ((Z.land y 1 =? 1) || (Z.land (height_mi s) 1 =? 0) || (ydec =? 0)).

(** partition_unit.rs:61-72, 77: CFLSign, cfl_sign_value *)
Definition sign_from_alpha (a : Z) : Z := get [1; 0; 2] (Z.sgn a + 1).
Definition cfl_sign_value (s : Z) : Z := get [0; -1; 1] s.
(** partition_unit.rs:79-128: CFLParams *)
Record cflp := mkCfl { sign0 : Z; sign1 : Z; scale0 : Z; scale1 : Z }.
Definition cfl_default : cflp := mkCfl 1 0 1 0.
Definition from_alpha (u v : Z) : cflp :=
  mkCfl (sign_from_alpha u) (sign_from_alpha v) (Z.abs u mod 256) (Z.abs v mod 256).
Definition csign (c : cflp) (uv : Z) : Z := if uv =? 0 then sign0 c else sign1 c.
Definition scale (c : cflp) (uv : Z) : Z := if uv =? 0 then scale0 c else scale1 c.
Definition joint_sign (c : cflp) : Z := csign c 0 * 3 + csign c 1 - 1.
Definition context (c : cflp) (uv : Z) : Z := (csign c uv - 1) * 3 + csign c (1 - uv).
Definition index (c : cflp) (uv : Z) : Z := scale c uv - 1.
Definition alpha (c : cflp) (uv : Z) : Z := cfl_sign_value (csign c uv) * scale c uv.

(** partition_unit.rs:249-261: write_cfl_alphas, with the asserts of joint_sign, index, context *)
Definition write_alpha (c : cflp) (uv : Z) : writer :=
  wif (negb (csign c uv =? 0))
    (wguard (negb (scale c uv =? 0)) (wsym "CflAlpha" [context c uv] 16 (index c uv))).
Definition write_cfl_alphas (c : cflp) : writer :=
  wguard (negb (csign c 0 =? 0) || negb (csign c 1 =? 0)) (wsym "CflSign" [] 8 (joint_sign c))
  +++ write_alpha c 0 +++ write_alpha c 1.

(** block_unit.rs:703-704 *)
Definition intra_mode_context : list Z := [0; 1; 2; 3; 4; 4; 4; 4; 3; 0; 1; 2; 0].
(** block_unit.rs:700-719: write_intra_mode_kf; [modes] row column *)
Definition write_intra_mode_kf (modes : Z -> Z -> Z) (x y m : Z) : writer :=
  let above_mode := if 0 <? y then modes (y - 1) x else 0 in
  let left_mode := if 0 <? x then modes y (x - 1) else 0 in
  match nth_ intra_mode_context above_mode, nth_ intra_mode_context left_mode with
  | Some a, Some l => wsym "YModeKF" [a; l] 13 m
  | _, _ => None
  end.
(** context/mod.rs:49-50 and block_unit.rs:726-731: write_intra_mode *)
Definition size_group_lookup : list Z := [0; 0; 0; 1; 1; 1; 2; 2; 2; 3; 3; 3; 3; 3; 3; 3; 0; 0; 1; 1; 2; 2].
Definition write_intra_mode (s m : Z) : writer := wsym "YMode" [get size_group_lookup s] 13 m.
(** block_unit.rs:734-745: write_intra_uv_mode; the tables are indexed by luma mode *)
Definition write_intra_uv_mode (uv y s : Z) : writer :=
  wguard (y <? 13)
    (if cfl_allowed s then wsym "UVModeCflAllowed" [y] 14 uv else wsym "UVModeCflNotAllowed" [y] 13 uv).
(** block_unit.rs:748-758: write_angle_delta *)
Definition write_angle_delta (a m : Z) : writer := wsym "AngleDelta" [m - 1] 7 (a + 3).
(** block_unit.rs:760-765: write_use_filter_intra *)
Definition write_use_filter_intra (s : Z) : writer := wsym "FilterIntra" [s] 2 0.
(** predict.rs:262-264: is_directional *)
Definition is_directional (m : Z) : bool := (1 <=? m) && (m <=? 8).

(** the fields of FrameInvariants and Sequence that are looked at; [has_inter] is frame_type.has_inter() *)
Record fip := mkFi { has_inter : bool; cs400 : bool; xdec : Z; ydec : Z; screen : Z; filt : bool }.
(** block_unit.rs:770-793: write_use_palette_mode with enable = false *)
Definition write_use_palette_mode (f : fip) (s x y m uv : Z) : writer :=
  wif (m =? 0) (wsym "PaletteYMode" [(width_log2 s - 2) + (height_log2 s - 2) - 2; 0] 2 0)
  +++ wif (has_chroma x y s (xdec f) (ydec f) (cs400 f) && (uv =? 0)) (wsym "PaletteUVMode" [0] 2 0).

(** encoder.rs:2082-2128, a block with an intra mode *)
Definition write_intra_info (f : fip) (modes : Z -> Z -> Z) (x y s m ay uv auv : Z) (cfl : cflp) : writer :=
  (if has_inter f then write_intra_mode s m else write_intra_mode_kf modes x y m)
  +++ wif (is_directional m && bs_ge s 3) (write_angle_delta ay m)
  +++ wif (has_chroma x y s (xdec f) (ydec f) (cs400 f))
        (write_intra_uv_mode uv m s
         +++ wif (uv =? 13) (wguard (cfl_allowed s) (write_cfl_alphas cfl))
         +++ wif (is_directional uv && bs_ge s 3) (write_angle_delta auv uv))
  +++ wif ((0 <? screen f) && bs_ge s 3 && (width s <=? 64) && (height s <=? 64))
        (write_use_palette_mode f s x y m uv)
  +++ wif (filt f && (m =? 0) && (width s <=? 32) && (height s <=? 32)) (write_use_filter_intra s).
