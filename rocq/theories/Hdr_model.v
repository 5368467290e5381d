(** Model of the sequence header and frame header writers
    (/repo/src/header.rs:277-940) and of the values the encoder puts in them
    (/repo/src/encoder.rs:206-330, 829-1110). *)
From Verif Require Import Base Bits Tile_model Config_model Lrf_model Sched_model.

(** [BitWriter::write_signed_var(n, v)]: n-bit two's complement, refusing
    values that do not fit *)
Definition w_signed (n v : Z) : wres :=
  if (- 2 ^ (n - 1) <=? v) && (v <? 2 ^ (n - 1)) then w_bits n (v mod 2 ^ n) else w_fail.

(** [log_in_base_2] (/repo/src/util/mod.rs, a loop of shifts): floor(log2 n), 0 for 0 *)
Definition log_in_base_2 (n : Z) : Z := Z.log2 n.

(** ** Configuration and sequence *)

(** The rest of EncoderConfig that reaches the headers: [hc_v] as in
    Config_model; color_description as its three code points; the booleans are
    speed_settings.cdef, speed_settings.lrf, a non-empty film_grain_params,
    transform.reduced_tx_set, transform.rdo_tx_decision,
    transform.enable_inter_tx_split, segmentation != Disabled. *)
Record hconfig := HConfig {
  hc_v : vconfig; hc_bd : Z; hc_csp : Z; hc_color : option (Z * Z * Z);
  hc_cdef : bool; hc_lrf : bool; hc_grain : bool;
  hc_reduced_tx : bool; hc_rdo_tx : bool; hc_inter_split : bool; hc_seg : bool }.

(** is_srgb_triple (/repo/src/api/color.rs): BT709 = 1, SRGB = 13, Identity = 0 *)
Definition is_srgb (x : Z * Z * Z) : bool :=
  match x with (cp, tc, mc) => (cp =? 1) && (tc =? 13) && (mc =? 0) end.

(** struct Sequence (/repo/src/encoder.rs:118-205), without the tiling and the
    fields that are not written.  frame_id_numbers_present_flag and
    decoder_model_info_present_flag are always false and left out, as are the
    operating point fields other than the level. *)
Record sequence := Seq {
  sq_profile : Z; sq_bd : Z; sq_chroma : chroma; sq_csp : Z; sq_full : bool; sq_color : option (Z * Z * Z);
  sq_w : Z; sq_h : Z; sq_sb128 : bool; sq_ohb1 : Z; sq_sct : Z; sq_imv : Z; sq_still : bool; sq_reduced : bool;
  sq_filter_intra : bool; sq_intra_edge : bool; sq_interintra : bool; sq_masked : bool; sq_dual : bool;
  sq_order_hint : bool; sq_jnt : bool; sq_refmvs : bool; sq_warped : bool; sq_superres : bool;
  sq_cdef : bool; sq_restoration : bool; sq_level : Z; sq_grain : bool; sq_timing : bool; sq_tb_num : Z; sq_tb_den : Z }.

(** [Sequence::new] (encoder.rs:206-330) *)
Definition sequence_of (c : hconfig) : sequence :=
  let v := hc_v c in
  let big := (32 <=? vc_width v) && (32 <=? vc_height v) in
  {| sq_profile := if (hc_bd c =? 12) || chroma_eqb (vc_chroma v) Cs422 then 2 else b2z (chroma_eqb (vc_chroma v) Cs444);
     sq_bd := hc_bd c; sq_chroma := vc_chroma v; sq_csp := hc_csp c; sq_full := vc_full_range v; sq_color := hc_color c;
     sq_w := vc_width v; sq_h := vc_height v; sq_sb128 := false; sq_ohb1 := 5;
     sq_sct := if vc_still v then 2 else 0; sq_imv := 2; sq_still := vc_still v; sq_reduced := vc_still v;
     sq_filter_intra := false; sq_intra_edge := true; sq_interintra := false; sq_masked := false; sq_dual := false;
     sq_order_hint := negb (vc_still v); sq_jnt := false; sq_refmvs := false; sq_warped := false; sq_superres := false;
     sq_cdef := hc_cdef c && big; sq_restoration := hc_lrf c && big;
     sq_level := match vc_level v with Some l => l | None => 31 end;
     sq_grain := hc_grain c; sq_timing := vc_timing_info v; sq_tb_num := vc_tb_num v; sq_tb_den := vc_tb_den v |}.

(** ** Sequence header *)

(** [write_max_frame_size] (header.rs:947-963); [w], [h] are fi.width, fi.height *)
Definition w_max_frame_size (w h : Z) : wres :=
  let wb := log_in_base_2 (w - 1) + 1 in
  let hb := log_in_base_2 (h - 1) + 1 in
  w_assert (wb <=? 16) >>> w_assert (hb <=? 16) >>>
  w_bits 4 (wb - 1) >>> w_bits 4 (hb - 1) >>> w_bits wb (u16 (w - 1)) >>> w_bits hb (u16 (h - 1)).

(** [write_sequence_header] (header.rs:328-402) *)
Definition w_sequence_header (s : sequence) (w h : Z) : wres :=
  w_max_frame_size w h >>>
  w_if (negb (sq_reduced s)) (w_bit false) >>>
  w_bit (sq_sb128 s) >>> w_bit (sq_filter_intra s) >>> w_bit (sq_intra_edge s) >>>
  (if sq_reduced s then
     w_assert (negb (sq_interintra s)) >>> w_assert (negb (sq_masked s)) >>> w_assert (negb (sq_warped s)) >>>
     w_assert (negb (sq_dual s)) >>> w_assert (negb (sq_order_hint s)) >>> w_assert (negb (sq_jnt s)) >>>
     w_assert (negb (sq_refmvs s)) >>> w_assert (sq_sct s =? 2) >>> w_assert (sq_imv s =? 2)
   else
     w_bit (sq_interintra s) >>> w_bit (sq_masked s) >>> w_bit (sq_warped s) >>> w_bit (sq_dual s) >>>
     w_bit (sq_order_hint s) >>>
     w_if (sq_order_hint s) (w_bit (sq_jnt s) >>> w_bit (sq_refmvs s)) >>>
     (if sq_sct s =? 2 then w_bit true else w_bit false >>> w_bit (negb (sq_sct s =? 0))) >>>
     (if 0 <? sq_sct s then
        if sq_imv s =? 2 then w_bit true else w_bit false >>> w_bit (negb (sq_imv s =? 0))
      else w_assert (sq_imv s =? 2)) >>>
     w_if (sq_order_hint s) (w_bits 3 (sq_ohb1 s))) >>>
  w_bit (sq_superres s) >>> w_bit (sq_cdef s) >>> w_bit (sq_restoration s).

(** [write_color_config] (header.rs:404-459) *)
Definition w_color_config (s : sequence) : wres :=
  let high := 8 <? sq_bd s in
  let mono := chroma_eqb (sq_chroma s) Cs400 in
  let srgb := match sq_color s with Some x => is_srgb x | None => false end in
  w_bit high >>>
  w_if ((sq_profile s =? 2) && high) (w_bit (sq_bd s =? 12)) >>>
  (if sq_profile s =? 1 then w_assert (negb mono) else w_bit mono) >>>
  w_bit (match sq_color s with Some _ => true | None => false end) >>>
  match sq_color s with Some (cp, tc, mc) => w_bits 8 cp >>> w_bits 8 tc >>> w_bits 8 mc | None => w_ret end >>>
  w_if (mono || negb srgb) (w_bit (sq_full s)) >>>
  (if mono then w_ret else
   (if srgb then
      w_assert (sq_full s) >>> w_assert (chroma_eqb (sq_chroma s) Cs444)
    else
      (if sq_profile s =? 0 then w_assert (chroma_eqb (sq_chroma s) Cs420)
       else if sq_profile s =? 1 then w_assert (chroma_eqb (sq_chroma s) Cs444)
       else if sq_bd s =? 12 then
         let ssx := negb (chroma_eqb (sq_chroma s) Cs444) in
         w_bit ssx >>> w_if ssx (w_bit (chroma_eqb (sq_chroma s) Cs420))
       else w_assert (chroma_eqb (sq_chroma s) Cs422)) >>>
      w_if (chroma_eqb (sq_chroma s) Cs420) (w_bits 2 (sq_csp s))) >>>
   w_bit true).

(** [write_sequence_header_obu] (header.rs:278-326) *)
Definition w_sequence_header_obu (s : sequence) (w h : Z) : wres :=
  w_assert (negb (sq_reduced s) || sq_still s) >>>
  w_bits 3 (sq_profile s) >>> w_bit (sq_still s) >>> w_bit (sq_reduced s) >>>
  w_assert (sq_level s <=? 31) >>>
  (if sq_reduced s then w_assert (negb (sq_timing s)) >>> w_bits 5 (sq_level s)
   else
     w_bit (sq_timing s) >>>
     w_if (sq_timing s)
       (w_bits 32 (sq_tb_num s) >>> w_bits 32 (sq_tb_den s) >>> w_bit true >>> w_bit true >>> w_bit false) >>>
     w_bit false >>> w_bits 5 0 >>> w_bits 12 0 >>> w_bits 5 (sq_level s) >>>
     w_if (7 <? sq_level s) (w_bits 1 0)) >>>
  w_sequence_header s w h >>> w_color_config s >>> w_bit (sq_grain s).

(** ** Frame header *)

(** GrainTableSegment (crate av1-grain, as used at header.rs:829-930); the
    autoregression coefficients are i8 *)
Record grain := Grain {
  g_seed : Z; g_y : list (Z * Z); g_cb : list (Z * Z); g_cr : list (Z * Z); g_scaling_shift : Z;
  g_lag : Z; g_ar_y : list Z; g_ar_cb : list Z; g_ar_cr : list Z; g_ar_shift : Z; g_scale_shift : Z;
  g_cb_mult : Z; g_cb_luma : Z; g_cb_off : Z; g_cr_mult : Z; g_cr_luma : Z; g_cr_off : Z;
  g_cfl : bool; g_overlap : bool }.

Definition w_points (l : list (Z * Z)) : wres :=
  w_bits 4 (u8 (zlen l)) >>> w_list (fun p => w_bits 8 (fst p) >>> w_bits 8 (snd p)) l.
(** `for i in 0..n { write(l[i] as i16 + 128) }`: panics when [l] is too short *)
Fixpoint w_coeffs (n : nat) (l : list Z) : wres :=
  match n, l with
  | O, _ => w_ret
  | S _, [] => None
  | S n, x :: l => w_bits 8 (u8 (x + 128)) >>> w_coeffs n l
  end.

Definition nonempty {A} (l : list A) : bool := match l with [] => false | _ => true end.

(** header.rs:826-930, for a frame whose sequence announces film grain *)
Definition w_film_grain (inter : bool) (cs : chroma) (full : bool) (o : option grain) : wres :=
  match o with
  | None => w_bit false
  | Some g =>
      let mono := chroma_eqb cs Cs400 in
      let cfl := negb mono && g_cfl g in
      w_bit true >>> w_bits 16 (g_seed g) >>> w_if inter (w_bit true) >>>
      w_points (g_y g) >>>
      w_if (negb mono) (w_bit (g_cfl g)) >>>
      w_if (negb (mono || cfl || (chroma_eqb cs Cs420 && negb (nonempty (g_y g)))))
        (w_points (g_cb g) >>> w_points (g_cr g)) >>>
      w_bits 2 (g_scaling_shift g - 8) >>> w_bits 2 (g_lag g) >>>
      let luma := 2 * g_lag g * (g_lag g + 1) in
      let chr := if nonempty (g_y g) then luma + 1 else luma in
      w_if (nonempty (g_y g)) (w_coeffs (Z.to_nat luma) (g_ar_y g)) >>>
      w_if (cfl || nonempty (g_cb g)) (w_coeffs (Z.to_nat chr) (g_ar_cb g)) >>>
      w_if (cfl || nonempty (g_cr g)) (w_coeffs (Z.to_nat chr) (g_ar_cr g)) >>>
      w_bits 2 (g_ar_shift g - 6) >>> w_bits 2 (g_scale_shift g) >>>
      w_if (nonempty (g_cb g)) (w_bits 8 (g_cb_mult g) >>> w_bits 8 (g_cb_luma g) >>> w_bits 9 (g_cb_off g)) >>>
      w_if (nonempty (g_cr g)) (w_bits 8 (g_cr_mult g) >>> w_bits 8 (g_cr_luma g) >>> w_bits 9 (g_cr_off g)) >>>
      w_bit (g_overlap g) >>> w_bit (negb full)
  end.

(** Segment features and data: 8 segments of 8 (feature, data) *)
Definition seg_data := list (list (bool * Z)).
(** transform_unit.rs:264-268 *)
Definition seg_feature_bits : list Z := [8; 6; 6; 6; 6; 3; 0; 0].
Definition seg_feature_is_signed : list bool := [true; true; true; true; true; false; false; false].

(** What coding a frame has decided before its header is written: the tile
    group (context_update_tile_id, max_tile_size_bytes), quantizers
    ([k_dc], [k_ac]: dc_delta_q, ac_delta_q), segmentation data, deblocking
    levels and sharpness (deltas_enabled is always false,
    /repo/src/deblock.rs and encoder.rs Default), CDEF, restoration types and
    unit sizes, filters, film grain. *)
Record coding := Coding {
  k_ctx_id : Z; k_tsb : Z; k_q : Z; k_dc : list Z; k_ac : list Z; k_seg : seg_data;
  k_levels : list Z; k_sharp : Z; k_damping : Z; k_cdef_bits : Z; k_cdef_y : list Z; k_cdef_uv : list Z;
  k_lr_types : list Z; k_lr_y : Z; k_lr_uv : Z; k_grain : option grain }.

(** FrameInvariants as far as the header goes.  Left out because constant:
    delta_q_present (false), globalmv_transformation_type (IDENTITY),
    large_scale_tile (false), allow_warped_motion. *)
Record frame := Frame {
  f_sef : bool; f_map_idx : Z; f_type : ftype; f_show : bool; f_showable : bool; f_error_res : bool;
  f_intra_only : bool; f_disable_cdf : bool; f_sct : Z; f_imv : Z; f_override : bool; f_hint : Z; f_primary : Z;
  f_refresh : Z; f_refs : list Z; f_w : Z; f_h : Z; f_rw : Z; f_rh : Z; f_render_diff : bool; f_intrabc : bool;
  f_hp : bool; f_switchable : bool; f_filter : Z; f_motion : bool; f_use_refmvs : bool; f_disable_end : bool;
  f_tx_select : bool; f_select : bool; f_reduced_tx : bool; f_seg_on : bool; f_k : coding }.

(** A slot of rec_buffer.frames: order_hint, width, height, render_width, render_height *)
Record rslot := RSlot { rs_hint : Z; rs_w : Z; rs_h : Z; rs_rw : Z; rs_rh : Z }.
Definition rbuf := list (option rslot).
Definition rslot_at (b : rbuf) (i : Z) : option rslot := nth (Z.to_nat i) b None.

(** frame_type as u8 (/repo/src/api/... FrameType: KEY = 0, INTER = 1, INTRA_ONLY = 2, SWITCH = 3) *)
Definition ftype_num (t : ftype) : Z := match t with KEY => 0 | INTER => 1 | SWITCH => 3 end.
Definition is_switch (t : ftype) : bool := match t with SWITCH => true | _ => false end.
Definition is_inter (t : ftype) : bool := match t with INTER => true | _ => false end.

(** [write_frame_size] (header.rs:965-986) *)
Definition w_frame_size (s : sequence) (f : frame) : wres :=
  w_if (f_override f)
    (let wb := log_in_base_2 (f_w f - 1) + 1 in
     let hb := log_in_base_2 (f_h f - 1) + 1 in
     w_assert (wb <=? 16) >>> w_assert (hb <=? 16) >>> w_bits wb (u16 (f_w f - 1)) >>> w_bits hb (u16 (f_h f - 1))) >>>
  w_assert (negb (sq_superres s)).
(** [write_render_size] (header.rs:988-998) *)
Definition w_render_size (f : frame) : wres :=
  w_bit (f_render_diff f) >>> w_if (f_render_diff f) (w_bits 16 (f_rw f - 1) >>> w_bits 16 (f_rh f - 1)).
(** [write_frame_size_with_refs] (header.rs:1000-1027) *)
Fixpoint w_size_refs (s : sequence) (f : frame) (b : rbuf) (refs : list Z) : wres :=
  match refs with
  | [] => w_frame_size s f >>> w_render_size f
  | r :: refs =>
      match rslot_at b r with
      | Some x =>
          if (rs_w x =? f_w f) && (rs_h x =? f_h f) && (rs_rw x =? f_rw f) && (rs_rh x =? f_rh f)
          then w_bit true >>> w_assert (negb (sq_superres s))
          else w_bit false >>> w_size_refs s f b refs
      | None => w_bit false >>> w_size_refs s f b refs
      end
  end.

(** [write_delta_q] (header.rs:1201-1208) *)
Definition w_delta_q (d : Z) : wres :=
  w_bit (negb (d =? 0)) >>> w_if (negb (d =? 0)) (w_assert ((-63 <=? d) && (d <=? 63)) >>> w_signed 7 d).

(** header.rs:738-756 *)
Definition w_quant (cs : chroma) (k : coding) : wres :=
  let dc i := nth i (k_dc k) 0 in let ac i := nth i (k_ac k) 0 in
  w_assert (0 <? k_q k) >>> w_bits 8 (k_q k) >>> w_delta_q (dc 0%nat) >>>
  w_if (negb (chroma_eqb cs Cs400))
    (w_assert (ac 0%nat =? 0) >>>
     let diff := negb (dc 1%nat =? dc 2%nat) || negb (ac 1%nat =? ac 2%nat) in
     w_bit diff >>> w_delta_q (dc 1%nat) >>> w_delta_q (ac 1%nat) >>>
     w_if diff (w_delta_q (dc 2%nat) >>> w_delta_q (ac 2%nat))) >>>
  w_bit false.

(** [write_segment_data] (header.rs:1165-1199); segmentation_optimize
    (/repo/src/segmentation.rs:23-36) sets enabled, update_map = true and
    update_data = (primary_ref_frame == PRIMARY_REF_NONE) *)
Fixpoint w_features (bits : list Z) (signed : list bool) (l : list (bool * Z)) : wres :=
  match bits, signed, l with
  | b :: bits, s :: signed, (on, data) :: l =>
      w_bit on >>> w_if on (if s : bool then w_signed (b + 1) data else w_bits b data) >>> w_features bits signed l
  | _, _, _ => w_ret
  end.
Definition w_segmentation (on : bool) (primary : Z) (data : seg_data) : wres :=
  let update_data := primary =? 7 in
  w_bit on >>>
  w_if on
    (w_if (negb (primary =? 7)) (w_bit true >>> w_bit false >>> w_bit update_data) >>>
     w_if update_data (w_list (w_features seg_feature_bits seg_feature_is_signed) data)).

(** [write_deblock_filter_b] (header.rs:1045-1108), deltas_enabled = false *)
Definition w_deblock (cs : chroma) (k : coding) : wres :=
  let l i := nth i (k_levels k) 0 in
  w_assert (l 0%nat <? 64) >>> w_bits 6 (l 0%nat) >>> w_assert (l 1%nat <? 64) >>> w_bits 6 (l 1%nat) >>>
  w_if (negb (chroma_eqb cs Cs400) && ((0 <? l 0%nat) || (0 <? l 1%nat)))
    (w_assert (l 2%nat <? 64) >>> w_bits 6 (l 2%nat) >>> w_assert (l 3%nat <? 64) >>> w_bits 6 (l 3%nat)) >>>
  w_bits 3 (k_sharp k) >>> w_bit false.

(** [write_frame_cdef] (header.rs:1110-1131) *)
Fixpoint w_strengths (mono : bool) (n : nat) (y uv : list Z) : wres :=
  match n, y, uv with
  | O, _, _ => w_ret
  | S n, a :: y, b :: uv =>
      w_assert (a <? 64) >>> w_assert (b <? 64) >>> w_bits 6 a >>> w_if (negb mono) (w_bits 6 b) >>> w_strengths mono n y uv
  | _, _, _ => None
  end.
Definition w_cdef (s : sequence) (f : frame) : wres :=
  let k := f_k f in
  w_if (sq_cdef s && negb (f_intrabc f))
    (w_assert (3 <=? k_damping k) >>> w_assert (k_damping k <=? 6) >>> w_bits 2 (k_damping k - 3) >>>
     w_assert (k_cdef_bits k <? 4) >>> w_bits 2 (k_cdef_bits k) >>>
     w_strengths (chroma_eqb (sq_chroma s) Cs400) (Z.to_nat (2 ^ k_cdef_bits k)) (k_cdef_y k) (k_cdef_uv k)).

(** [get_skip_mode_allowed] (encoder.rs:339-400).  A search for the nearest
    hint: [fwd] (resp. [bwd]) is forward_idx >= 0 with forward_hint. *)
Definition better (dist : Z -> Z -> Z) (h : Z) (best : option Z) : bool :=
  match best with None => true | Some x => 0 <? dist h x end.
Fixpoint skip_search (b : rbuf) (cur : Z) (refs : list Z) (fwd bwd : option Z) : option Z * option Z :=
  match refs with
  | [] => (fwd, bwd)
  | r :: refs =>
      match rslot_at b r with
      | Some x =>
          let h := rs_hint x in
          if relative_dist h cur <? 0 then
            skip_search b cur refs (if better relative_dist h fwd then Some h else fwd) bwd
          else if (0 <? relative_dist h cur) && better relative_dist h bwd then skip_search b cur refs fwd (Some h)
          else skip_search b cur refs fwd bwd
      | None => skip_search b cur refs fwd bwd
      end
  end.
Fixpoint skip_second (b : rbuf) (fh : Z) (refs : list Z) (second : option Z) : option Z :=
  match refs with
  | [] => second
  | r :: refs =>
      match rslot_at b r with
      | Some x =>
          let h := rs_hint x in
          skip_second b fh refs (if (relative_dist h fh <? 0) && better relative_dist h second then Some h else second)
      | None => skip_second b fh refs second
      end
  end.
(** [refs]: ref_frames of the allowed reference types *)
Definition skip_mode_allowed (s : sequence) (f : frame) (b : rbuf) (refs : list Z) : bool :=
  if f_intra_only f || negb (f_select f) || negb (sq_order_hint s) then false else
  match skip_search b (f_hint f) refs None None with
  | (None, _) => false
  | (Some _, Some _) => true
  | (Some fh, None) => match skip_second b fh refs None with Some _ => true | None => false end
  end.

(** [allowed_ref_frames] (/repo/src/api/internal.rs:194-203) as indices into ref_frames *)
Definition allowed_refs (c : config) (refs : list Z) : list Z :=
  if ic_reorder c then refs else if ic_multiref c then firstn 4 refs else firstn 1 refs.

(** [write_frame_header_obu] (header.rs:461-940) without the final byte
    alignment, which is in Obu_model; also without the trailing bit of a
    show-existing header (header.rs:488), which is there too.
    [t], [sbw], [sbh]: tiling and size in superblocks.  fi.allow_intrabc and
    fi.sequence as in [f], [s]. *)
Definition w_frame_header (c : config) (s : sequence) (t : tiling) (sbw sbh : Z) (f : frame) (b : rbuf) : wres :=
  let k := f_k f in
  let key := is_key (f_type f) in
  if sq_reduced s && f_sef f then None else
  w_if (negb (sq_reduced s)) (w_bit (f_sef f)) >>>
  if f_sef f then w_bits 3 (f_map_idx f) else
  (if sq_reduced s then
     w_assert key >>> w_assert (f_show f) >>> w_assert (negb (f_showable f))
   else
     w_bits 2 (ftype_num (f_type f)) >>> w_bit (f_show f) >>>
     w_if (negb (f_show f)) (w_bit (f_showable f)) >>>
     w_assert (negb (f_error_res f) || (f_primary f =? 7)) >>>
     (if is_switch (f_type f) then w_assert (f_error_res f)
      else w_if (negb (key && f_show f)) (w_bit (f_error_res f)))) >>>
  w_bit (f_disable_cdf f) >>>
  (if sq_sct s =? 2 then w_bit (negb (f_sct f =? 0)) else w_assert (f_sct f =? sq_sct s)) >>>
  w_if (0 <? f_sct f) (if sq_imv s =? 2 then w_bit (negb (f_imv f =? 0)) else w_assert (f_imv f =? sq_imv s)) >>>
  w_assert (f_imv f =? b2z (key || f_intra_only f)) >>>
  w_if (negb (is_switch (f_type f)) && negb (sq_reduced s)) (w_bit (f_override f)) >>>
  w_if (sq_order_hint s) (w_bits (sq_ohb1 s + 1) (f_hint f mod 2 ^ (sq_ohb1 s + 1))) >>>
  w_if (negb (f_error_res f) && negb (f_intra_only f)) (w_bits 3 (f_primary f)) >>>
  (if key then if f_show f then w_assert (f_refresh f =? 255) else None
   else if is_switch (f_type f) then w_assert (f_refresh f =? 255)
   else w_assert (negb (f_intra_only f) || negb (f_refresh f =? 255)) >>> w_bits 8 (f_refresh f)) >>>
  w_if ((negb (f_intra_only f) || negb (f_refresh f =? 255)) && f_error_res f && sq_order_hint s)
    (w_list (fun i => w_bits (sq_ohb1 s + 1)
                        (match rslot_at b i with Some x => rs_hint x mod 2 ^ (sq_ohb1 s + 1) | None => 0 end))
       [0; 1; 2; 3; 4; 5; 6; 7]) >>>
  w_if (f_intra_only f)
    (w_frame_size s f >>> w_render_size f >>> w_if (negb (f_sct f =? 0)) (w_bit (f_intrabc f))) >>>
  w_if (negb (key || f_intra_only f))
    (w_if (sq_order_hint s) (w_bit false) >>>
     w_list (fun r => w_bits 3 r) (f_refs f) >>>
     (if negb (f_error_res f) && f_override f then w_size_refs s f b (f_refs f)
      else w_frame_size s f >>> w_render_size f) >>>
     w_if (f_imv f =? 0) (w_ign (w_bit (f_hp f))) >>>
     w_bit (f_switchable f) >>> w_if (negb (f_switchable f)) (w_bits 2 (f_filter f)) >>>
     w_bit (f_motion f) >>>
     w_if (negb (f_error_res f) && sq_refmvs s) (w_bit (f_use_refmvs f))) >>>
  (if sq_reduced s || f_disable_cdf f then w_assert (f_disable_end f) else w_bit (f_disable_end f)) >>>
  w_tile_info t sbw sbh (k_ctx_id k) (k_tsb k) >>>
  w_quant (sq_chroma s) k >>>
  w_segmentation (f_seg_on f) (f_primary f) (k_seg k) >>>
  w_bit false >>>
  w_deblock (sq_chroma s) k >>>
  w_cdef s f >>>
  w_frame_lrf (sq_restoration s) (f_intrabc f) (sq_sb128 s) (chroma_eqb (sq_chroma s) Cs420) (k_lr_types k) (k_lr_y k) (k_lr_uv k) >>>
  w_bit (f_tx_select f) >>>
  w_if (negb (f_intra_only f)) (w_bit (f_select f)) >>>
  w_if (skip_mode_allowed s f b (allowed_refs c (f_refs f))) (w_bit false) >>>
  w_if (negb (f_intra_only f || f_error_res f || negb (sq_warped s))) (w_bit false) >>>
  w_bit (f_reduced_tx f) >>>
  w_if (negb (f_intra_only f)) (w_list w_bit (repeat false 7)) >>>
  w_if (sq_grain s) (w_film_grain (is_inter (f_type f)) (sq_chroma s) (sq_full s) (k_grain k)).

(** ** The frames the encoder makes *)

(** [FrameInvariants::new] and [new_key_frame] (encoder.rs:834-959) and the
    assignments of [new_inter_frame] (encoder.rs:963-1108) that are not already
    in the front-end model ([finfo]).  default_filter is REGULAR = 0 and
    is_filter_switchable false; frames of one sequence have the size of the
    configuration; showable_frame is never changed after [new];
    a show-existing frame is made like an inter frame. *)
Definition frame_of (c : hconfig) (i : finfo) (k : coding) : frame :=
  let v := hc_v c in
  let s := sequence_of c in
  let key := is_key (fi_type i) in
  let diff := negb (vc_render_w v =? vc_width v) || negb (vc_render_h v =? vc_height v) in
  {| f_sef := fi_sef i; f_map_idx := fi_map_idx i; f_type := fi_type i; f_show := fi_show i;
     f_showable := negb (sq_reduced s); f_error_res := fi_error_res i;
     f_intra_only := key; f_disable_cdf := false; f_sct := sq_sct s; f_imv := b2z key;
     f_override :=
       if key then negb (u32 (vc_width v) =? u32 (sq_w s)) || negb (u32 (vc_height v) =? u32 (sq_h s))
       else if is_switch (fi_type i) then true
       else if sq_reduced s then false
       else if is_inter (fi_type i) && negb (fi_error_res i) && diff then true
       else negb (u32 (vc_width v) =? u32 (sq_w s)) || negb (u32 (vc_height v) =? u32 (sq_h s));
     f_hint := fi_hint i; f_primary := fi_primary i; f_refresh := fi_refresh i; f_refs := fi_refs i;
     f_w := vc_width v; f_h := vc_height v; f_rw := vc_render_w v; f_rh := vc_render_h v; f_render_diff := diff;
     f_intrabc := false; f_hp := false; f_switchable := false; f_filter := 0; f_motion := false; f_use_refmvs := false;
     f_disable_end := sq_reduced s;
     f_tx_select := if key then hc_rdo_tx c else hc_inter_split c;
     f_select := fi_select i; f_reduced_tx := hc_reduced_tx c; f_seg_on := hc_seg c; f_k := k |}.

(** The slots of rec_buffer made by [update_rec_buffer] (encoder.rs:3820-3845):
    every frame of a context has the same sizes *)
Definition rbuf_of (c : hconfig) (s : slots) : rbuf :=
  let v := hc_v c in
  map (option_map (fun r => RSlot (rf_hint r) (u32 (vc_width v)) (u32 (vc_height v)) (vc_render_w v) (vc_render_h v))) s.
