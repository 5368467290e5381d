(** The sequence header and frame header syntax of the AV1 specification
    (5.5, 5.9), as parsers.  Nothing of the encoder is used.  Where the
    specification has a feature that would need more decoder state than is kept
    here (scalability of the operating points is parsed; superres, frame ids,
    short signalling of references, delta q, global motion parameters, loop
    filter deltas, film grain copied from another frame are not), the parser
    refuses the bitstream. *)
From Verif Require Import Base Bits Tile_spec Lrf_spec.

(** ** Sequence header *)
Record s_seq := SSeq {
  q_profile : Z; q_still : bool; q_reduced : bool;
  q_timing : option (Z * Z * option Z); (* num_units_in_display_tick, time_scale, num_ticks_per_picture *)
  q_decoder_model : bool;
  q_ops : list (Z * Z * Z);             (* operating_point_idc, seq_level_idx, seq_tier *)
  q_wbits : Z; q_hbits : Z; q_maxw : Z; q_maxh : Z; q_frame_ids : bool;
  q_sb128 : bool; q_filter_intra : bool; q_intra_edge : bool; q_interintra : bool; q_masked : bool; q_warped : bool;
  q_dual : bool; q_order_hint : bool; q_jnt : bool; q_refmvs : bool; q_sct : Z; q_imv : Z; q_ohbits : Z;
  q_superres : bool; q_cdef : bool; q_restoration : bool;
  q_bd : Z; q_mono : bool; q_cp : Z; q_tc : Z; q_mc : Z; q_full : bool; q_ssx : bool; q_ssy : bool; q_csp : Z;
  q_sep_uv : bool; q_grain : bool }.

(** 5.5.3 timing_info( ) *)
Definition s_timing_info : parser (Z * Z * option Z) :=
  units <- p_f 32 ;;
  scale <- p_f 32 ;;
  equal <- p_flag ;;
  if equal then m1 <- p_uvlc ;; p_ret (units, scale, Some (m1 + 1)) else p_ret (units, scale, None).

(** the loop over operating points in 5.5.1; [dm] is buffer_delay_length when
    decoder model information is present, [idd] initial_display_delay_present_flag *)
Definition s_operating_point (dm : option Z) (idd : bool) : parser (Z * Z * Z) :=
  idc <- p_f 12 ;;
  level <- p_f 5 ;;
  tier <- (if 7 <? level then p_f 1 else p_ret 0) ;;
  x <- (match dm with
        | None => p_ret 0
        | Some n => present <- p_flag ;;
                    if present then a <- p_f n ;; b <- p_f n ;; p_f 1 else p_ret 0
        end) ;;
  y <- (if idd : bool then present <- p_flag ;; if present then p_f 4 else p_ret 0 else p_ret 0) ;;
  p_ret (idc, level, tier).

(** timing and operating points *)
Definition s_operating (reduced : bool) : parser (option (Z * Z * option Z) * bool * list (Z * Z * Z)) :=
  if reduced then level <- p_f 5 ;; p_ret (None, false, [(0, level, 0)])
  else
    present <- p_flag ;;
    td <- (if present then
             ti <- s_timing_info ;;
             dmp <- p_flag ;;
             if dmp then
               len <- p_f 5 ;; tick <- p_f 32 ;; a <- p_f 5 ;; b <- p_f 5 ;; p_ret (Some ti, Some (len + 1))
             else p_ret (Some ti, None)
           else p_ret (None, None)) ;;
    idd <- p_flag ;;
    cnt <- p_f 5 ;;
    ops <- p_repeat (Z.to_nat (cnt + 1)) (s_operating_point (snd td) idd) ;;
    p_ret (fst td, match snd td with Some _ => true | None => false end, ops).

(** 5.5.2 color_config( ): bit depth, mono_chrome, colour code points,
    color_range, subsampling, chroma_sample_position, separate_uv_delta_q *)
Record s_color := SColor {
  c_bd : Z; c_mono : bool; c_cp : Z; c_tc : Z; c_mc : Z; c_full : bool; c_ssx : bool; c_ssy : bool; c_csp : Z; c_sep : bool }.
Definition s_color_config (profile : Z) : parser s_color :=
  high <- p_flag ;;
  bd <- (if (profile =? 2) && high then twelve <- p_flag ;; p_ret (if twelve then 12 else 10)
         else p_ret (if high then 10 else 8)) ;;
  mono <- (if profile =? 1 then p_ret false else p_flag) ;;
  desc <- p_flag ;;
  col <- (if desc then cp <- p_f 8 ;; tc <- p_f 8 ;; mc <- p_f 8 ;; p_ret (cp, tc, mc) else p_ret (2, 2, 2)) ;;
  match col with
  | (cp, tc, mc) =>
      if mono then
        full <- p_flag ;; p_ret (SColor bd true cp tc mc full true true 0 false)
      else
        r <- (if (cp =? 1) && (tc =? 13) && (mc =? 0) then p_ret (true, false, false, 0)
              else
                full <- p_flag ;;
                ss <- (if profile =? 0 then p_ret (true, true)
                       else if profile =? 1 then p_ret (false, false)
                       else if bd =? 12 then
                         ssx <- p_flag ;;
                         if ssx then ssy <- p_flag ;; p_ret (true, ssy) else p_ret (false, false)
                       else p_ret (true, false)) ;;
                csp <- (if fst ss && snd ss then p_f 2 else p_ret 0) ;;
                p_ret (full, fst ss, snd ss, csp)) ;;
        sep <- p_flag ;;
        match r with (full, ssx, ssy, csp) => p_ret (SColor bd false cp tc mc full ssx ssy csp sep) end
  end.

(** the inter tools of 5.5.1 *)
Record s_tools := STools {
  t_interintra : bool; t_masked : bool; t_warped : bool; t_dual : bool; t_order_hint : bool; t_jnt : bool; t_refmvs : bool;
  t_sct : Z; t_imv : Z; t_ohbits : Z }.
Definition s_inter_tools (reduced : bool) : parser s_tools :=
  if reduced then p_ret (STools false false false false false false false 2 2 0)
  else
    ii <- p_flag ;;
    mc <- p_flag ;;
    wm <- p_flag ;;
    df <- p_flag ;;
    oh <- p_flag ;;
    jr <- (if oh then j <- p_flag ;; r <- p_flag ;; p_ret (j, r) else p_ret (false, false)) ;;
    choose <- p_flag ;;
    sct <- (if choose then p_ret 2 else p_f 1) ;;
    imv <- (if 0 <? sct then ch <- p_flag ;; if ch then p_ret 2 else p_f 1 else p_ret 2) ;;
    bits <- (if oh then m1 <- p_f 3 ;; p_ret (m1 + 1) else p_ret 0) ;;
    p_ret (STools ii mc wm df oh (fst jr) (snd jr) sct imv bits).

(** 5.5.1 sequence_header_obu( ) *)
Definition s_sequence_header : parser s_seq :=
  profile <- p_f 3 ;;
  still <- p_flag ;;
  reduced <- p_flag ;;
  op <- s_operating reduced ;;
  wb <- p_f 4 ;;
  hb <- p_f 4 ;;
  w <- p_f (wb + 1) ;;
  h <- p_f (hb + 1) ;;
  ids <- (if reduced then p_ret false else p_flag) ;;
  x <- (if ids then a <- p_f 4 ;; p_f 3 else p_ret 0) ;;
  sb128 <- p_flag ;;
  fint <- p_flag ;;
  edge <- p_flag ;;
  t <- s_inter_tools reduced ;;
  superres <- p_flag ;;
  cdef <- p_flag ;;
  restoration <- p_flag ;;
  c <- s_color_config profile ;;
  g <- p_flag ;;
  match op with
  | (timing, dm, ops) =>
      p_ret {| q_profile := profile; q_still := still; q_reduced := reduced; q_timing := timing; q_decoder_model := dm; q_ops := ops;
               q_wbits := wb + 1; q_hbits := hb + 1; q_maxw := w + 1; q_maxh := h + 1; q_frame_ids := ids;
               q_sb128 := sb128; q_filter_intra := fint; q_intra_edge := edge;
               q_interintra := t_interintra t; q_masked := t_masked t; q_warped := t_warped t; q_dual := t_dual t;
               q_order_hint := t_order_hint t; q_jnt := t_jnt t; q_refmvs := t_refmvs t; q_sct := t_sct t; q_imv := t_imv t;
               q_ohbits := t_ohbits t; q_superres := superres; q_cdef := cdef; q_restoration := restoration;
               q_bd := c_bd c; q_mono := c_mono c; q_cp := c_cp c; q_tc := c_tc c; q_mc := c_mc c; q_full := c_full c;
               q_ssx := c_ssx c; q_ssy := c_ssy c; q_csp := c_csp c; q_sep_uv := c_sep c; q_grain := g |}
  end.

(** ** Frame header *)

(** What a reference slot keeps for parsing headers: RefOrderHint,
    RefUpscaledWidth, RefFrameHeight, RefRenderWidth, RefRenderHeight and the
    saved segmentation features *)
Record s_slot := SSlot {
  sl_hint : Z; sl_w : Z; sl_h : Z; sl_rw : Z; sl_rh : Z; sl_seg : list (list (bool * Z)); sl_type : Z }.
Definition s_dpb := list (option s_slot).
Definition s_at (d : s_dpb) (i : Z) : option s_slot := nth (Z.to_nat i) d None.

Definition KEY_FRAME := 0. Definition INTER_FRAME := 1. Definition INTRA_ONLY_FRAME := 2. Definition SWITCH_FRAME := 3.

(** 5.9.30 film_grain_params( ) *)
Record s_grain := SGrain {
  sg_seed : Z; sg_y : list (Z * Z); sg_cfl : bool; sg_cb : list (Z * Z); sg_cr : list (Z * Z); sg_scaling : Z; sg_lag : Z;
  sg_ar_y : list Z; sg_ar_cb : list Z; sg_ar_cr : list Z; sg_ar_shift : Z; sg_scale_shift : Z;
  sg_cb_mult : option (Z * Z * Z); sg_cr_mult : option (Z * Z * Z); sg_overlap : bool; sg_clip : bool }.
Definition s_points (limit : Z) : parser (list (Z * Z)) :=
  n <- p_f 4 ;;
  if limit <? n then p_fail else
  p_repeat (Z.to_nat n) (a <- p_f 8 ;; b <- p_f 8 ;; p_ret (a, b)).
Definition s_mults (on : bool) : parser (option (Z * Z * Z)) :=
  if on then a <- p_f 8 ;; b <- p_f 8 ;; c <- p_f 9 ;; p_ret (Some (a, b, c)) else p_ret None.
Definition s_coeffs (on : bool) (n : Z) : parser (list Z) :=
  if on then p_repeat (Z.to_nat n) (v <- p_f 8 ;; p_ret (v - 128)) else p_ret [].
Definition s_film_grain (q : s_seq) (frame_type : Z) (show showable : bool) : parser (option s_grain) :=
  if negb (q_grain q) || (negb show && negb showable) then p_ret None else
  apply <- p_flag ;;
  if negb apply then p_ret None else
  seed <- p_f 16 ;;
  upd <- (if frame_type =? INTER_FRAME then p_flag else p_ret true) ;;
  if negb upd then p_fail else
  ys <- s_points 14 ;;
  cfl <- (if q_mono q then p_ret false else p_flag) ;;
  cc <- (if q_mono q || cfl || (q_ssx q && q_ssy q && (zlen ys =? 0)) then p_ret ([], [])
         else cb <- s_points 10 ;; cr <- s_points 10 ;; p_ret (cb, cr)) ;;
  scaling <- p_f 2 ;;
  lag <- p_f 2 ;;
  let numPosLuma := 2 * lag * (lag + 1) in
  let numPosChroma := if 0 <? zlen ys then numPosLuma + 1 else numPosLuma in
  ay <- s_coeffs (0 <? zlen ys) numPosLuma ;;
  acb <- s_coeffs (cfl || (0 <? zlen (fst cc))) numPosChroma ;;
  acr <- s_coeffs (cfl || (0 <? zlen (snd cc))) numPosChroma ;;
  ars <- p_f 2 ;;
  gss <- p_f 2 ;;
  mcb <- s_mults (0 <? zlen (fst cc)) ;;
  mcr <- s_mults (0 <? zlen (snd cc)) ;;
  overlap <- p_flag ;;
  clip <- p_flag ;;
  p_ret (Some (SGrain seed ys cfl (fst cc) (snd cc) (scaling + 8) lag ay acb acr (ars + 6) gss mcb mcr overlap clip)).

(** 5.9.12 read_delta_q, 5.9.12 quantization_params( ):
    base_q_idx, DeltaQYDc, DeltaQUDc, DeltaQUAc, DeltaQVDc, DeltaQVAc, using_qmatrix *)
Definition s_delta_q : parser Z := on <- p_flag ;; if on then p_su 7 else p_ret 0.
Definition s_quant (mono sep : bool) : parser (Z * list Z * bool) :=
  base <- p_f 8 ;;
  ydc <- s_delta_q ;;
  uv <- (if mono then p_ret [0; 0; 0; 0]
         else
           diff <- (if sep then p_flag else p_ret false) ;;
           udc <- s_delta_q ;;
           uac <- s_delta_q ;;
           if diff then vdc <- s_delta_q ;; vac <- s_delta_q ;; p_ret [udc; uac; vdc; vac]
           else p_ret [udc; uac; udc; uac]) ;;
  qm <- p_flag ;;
  if qm then p_fail else p_ret (base, ydc :: uv, qm).

(** 5.9.14 segmentation_params( ): whether enabled; update_map,
    temporal_update; the features in force *)
Definition Segmentation_Feature_Bits := [8; 6; 6; 6; 6; 3; 0; 0].
Definition Segmentation_Feature_Signed := [true; true; true; true; true; false; false; false].
Definition Segmentation_Feature_Max := [255; 63; 63; 63; 63; 7; 0; 0].
Fixpoint s_features (bits : list Z) (signed : list bool) (limits : list Z) : parser (list (bool * Z)) :=
  match bits, signed, limits with
  | b :: bits, s :: signed, m :: limits =>
      on <- p_flag ;;
      v <- (if on then
              if s : bool then v <- p_su (1 + b) ;; p_ret (Z.max (- m) (Z.min m v))
              else v <- p_f b ;; p_ret (Z.max 0 (Z.min m v))
            else p_ret 0) ;;
      r <- s_features bits signed limits ;;
      p_ret ((on, v) :: r)
  | _, _, _ => p_ret []
  end.
Definition no_features : list (list (bool * Z)) := repeat (repeat (false, 0) 8) 8.
Record s_seg := SSegP { ss_on : bool; ss_update_map : bool; ss_temporal : bool; ss_update_data : bool; ss_features : list (list (bool * Z)) }.
(** [prev]: the features loaded by load_previous( ) *)
Definition s_segmentation (primary : Z) (prev : list (list (bool * Z))) : parser s_seg :=
  on <- p_flag ;;
  if negb on then p_ret (SSegP false false false false no_features) else
  u <- (if primary =? 7 then p_ret (true, false, true)
        else
          map <- p_flag ;;
          temporal <- (if map then p_flag else p_ret false) ;;
          data <- p_flag ;;
          p_ret (map, temporal, data)) ;;
  match u with
  | (map, temporal, data) =>
      if data : bool then
        fs <- p_repeat 8 (s_features Segmentation_Feature_Bits Segmentation_Feature_Signed Segmentation_Feature_Max) ;;
        p_ret (SSegP true map temporal true fs)
      else p_ret (SSegP true map temporal false prev)
  end.

(** 7.12.2 get_qidx( 1, segmentId ) and CodedLossless (5.9.2) *)
Definition s_qidx (base : Z) (seg : s_seg) (f : list (bool * Z)) : Z :=
  match f with
  | (true, d) :: _ => if ss_on seg then Z.max 0 (Z.min 255 (base + d)) else base
  | _ => base
  end.
Definition s_coded_lossless (base : Z) (deltas : list Z) (seg : s_seg) : bool :=
  forallb (fun f => (s_qidx base seg f =? 0) && forallb (Z.eqb 0) deltas) (ss_features seg).

(** 5.9.11 loop_filter_params( ): the levels and the sharpness *)
Definition s_loop_filter (lossless intrabc mono : bool) : parser (option (list Z * Z)) :=
  if lossless || intrabc then p_ret None else
  l0 <- p_f 6 ;;
  l1 <- p_f 6 ;;
  uv <- (if negb mono && negb ((l0 =? 0) && (l1 =? 0)) then a <- p_f 6 ;; b <- p_f 6 ;; p_ret [a; b] else p_ret []) ;;
  sharp <- p_f 3 ;;
  delta <- p_flag ;;
  if delta then p_fail else p_ret (Some (l0 :: l1 :: uv, sharp)).

(** 5.9.19 cdef_params( ): CdefDamping, cdef_bits and the strengths
    (primary, secondary) of luma and chroma *)
Definition s_strength : parser (Z * Z) :=
  pri <- p_f 4 ;; sec <- p_f 2 ;; p_ret (pri, if sec =? 3 then 4 else sec).
Definition s_cdef (lossless intrabc enabled mono : bool) : parser (option (Z * Z * list ((Z * Z) * option (Z * Z)))) :=
  if lossless || intrabc || negb enabled then p_ret None else
  damping <- p_f 2 ;;
  bits <- p_f 2 ;;
  st <- p_repeat (Z.to_nat (2 ^ bits))
          (y <- s_strength ;;
           uv <- (if mono then p_ret None else x <- s_strength ;; p_ret (Some x)) ;;
           p_ret (y, uv)) ;;
  p_ret (Some (damping + 3, bits, st)).

(** 5.9.3 get_relative_dist( ) *)
Definition s_relative_dist (bits a b : Z) : Z :=
  let diff := (a - b) mod 2 ^ bits in
  if diff <? 2 ^ (bits - 1) then diff else diff - 2 ^ bits.
(** 5.9.22 skipModeAllowed for an inter frame with reference_select;
    [hints]: RefOrderHint[ ref_frame_idx[ i ] ] *)
Fixpoint s_fwd_bwd (bits cur : Z) (hints : list Z) (fwd bwd : option Z) : option Z * option Z :=
  match hints with
  | [] => (fwd, bwd)
  | h :: r =>
      if s_relative_dist bits h cur <? 0 then
        s_fwd_bwd bits cur r
          (match fwd with
           | None => Some h
           | Some x => if 0 <? s_relative_dist bits h x then Some h else fwd
           end) bwd
      else if 0 <? s_relative_dist bits h cur then
        s_fwd_bwd bits cur r fwd
          (match bwd with
           | None => Some h
           | Some x => if s_relative_dist bits h x <? 0 then Some h else bwd
           end)
      else s_fwd_bwd bits cur r fwd bwd
  end.
Definition s_skip_mode_allowed (bits cur : Z) (hints : list Z) : bool :=
  match s_fwd_bwd bits cur hints None None with
  | (None, _) => false
  | (Some _, Some _) => true
  | (Some f, None) => existsb (fun h => s_relative_dist bits h f <? 0) hints
  end.

(** The part of the header up to the reference hints *)
Record s_start := SStart {
  st_type : Z; st_show : bool; st_showable : bool; st_error_res : bool; st_disable_cdf : bool; st_sct : Z; st_imv : Z;
  st_override : bool; st_hint : Z; st_primary : Z; st_refresh : Z; st_ref_hints : list Z }.
Definition st_intra (x : s_start) : bool := (st_type x =? KEY_FRAME) || (st_type x =? INTRA_ONLY_FRAME).
Definition s_frame_start (q : s_seq) : parser s_start :=
  a <- (if q_reduced q then p_ret (KEY_FRAME, true, false, true)
        else
          t <- p_f 2 ;;
          show <- p_flag ;;
          showable <- (if show then p_ret (negb (t =? KEY_FRAME)) else p_flag) ;;
          er <- (if (t =? SWITCH_FRAME) || ((t =? KEY_FRAME) && show) then p_ret true else p_flag) ;;
          p_ret (t, show, showable, er)) ;;
  match a with
  | (t, show, showable, er) =>
      let intra := (t =? KEY_FRAME) || (t =? INTRA_ONLY_FRAME) in
      dc <- p_flag ;;
      sct <- (if q_sct q =? 2 then p_f 1 else p_ret (q_sct q)) ;;
      imv <- (if negb (sct =? 0) then if q_imv q =? 2 then p_f 1 else p_ret (q_imv q) else p_ret 0) ;;
      ov <- (if t =? SWITCH_FRAME then p_ret true else if q_reduced q then p_ret false else p_flag) ;;
      hint <- p_f (q_ohbits q) ;;
      primary <- (if intra || er then p_ret 7 else p_f 3) ;;
      refresh <- (if (t =? SWITCH_FRAME) || ((t =? KEY_FRAME) && show) then p_ret 255 else p_f 8) ;;
      hints <- (if (negb intra || negb (refresh =? 255)) && er && q_order_hint q then p_repeat 8 (p_f (q_ohbits q)) else p_ret []) ;;
      p_ret (SStart t show showable er dc sct (if intra then 1 else imv) ov hint primary refresh hints)
  end.

(** 5.9.5 frame_size( ), 5.9.6 render_size( ) *)
Definition s_frame_size (q : s_seq) (ov : bool) : parser (Z * Z) :=
  if q_superres q then p_fail else
  if ov then w <- p_f (q_wbits q) ;; h <- p_f (q_hbits q) ;; p_ret (w + 1, h + 1)
  else p_ret (q_maxw q, q_maxh q).
Definition s_render_size (sz : Z * Z) : parser (Z * Z) :=
  diff <- p_flag ;;
  if diff then w <- p_f 16 ;; h <- p_f 16 ;; p_ret (w + 1, h + 1) else p_ret sz.
(** 5.9.7 frame_size_with_refs( ); [refs] are ref_frame_idx *)
Fixpoint s_size_refs (q : s_seq) (d : s_dpb) (refs : list Z) : parser ((Z * Z) * (Z * Z)) :=
  match refs with
  | [] => sz <- s_frame_size q true ;; r <- s_render_size sz ;; p_ret (sz, r)
  | i :: refs =>
      found <- p_flag ;;
      if found then
        match s_at d i with
        | Some x => if q_superres q then p_fail else p_ret ((sl_w x, sl_h x), (sl_rw x, sl_rh x))
        | None => p_fail
        end
      else s_size_refs q d refs
  end.

(** sizes and, for inter frames, references and filters *)
Record s_inter := SInter {
  si_size : Z * Z; si_render : Z * Z; si_intrabc : bool; si_refs : list Z; si_hp : bool; si_filter : Z; si_motion : bool;
  si_refmvs : bool }.
Definition s_inter_part (q : s_seq) (d : s_dpb) (x : s_start) : parser s_inter :=
  if st_intra x then
    sz <- s_frame_size q (st_override x) ;;
    r <- s_render_size sz ;;
    ibc <- (if negb (st_sct x =? 0) then p_flag else p_ret false) ;;
    p_ret (SInter sz r ibc [] false 0 false false)
  else
    short <- (if q_order_hint q then p_flag else p_ret false) ;;
    if short then p_fail else
    refs <- p_repeat 7 (p_f 3) ;;
    sizes <- (if st_override x && negb (st_error_res x) then s_size_refs q d refs
              else sz <- s_frame_size q (st_override x) ;; r <- s_render_size sz ;; p_ret (sz, r)) ;;
    hp <- (if st_imv x =? 0 then p_flag else p_ret false) ;;
    sw <- p_flag ;;
    filter <- (if sw then p_ret 4 else p_f 2) ;;
    motion <- p_flag ;;
    mvs <- (if st_error_res x || negb (q_refmvs q) then p_ret false else p_flag) ;;
    p_ret (SInter (fst sizes) (snd sizes) false refs hp filter motion mvs).

(** Everything else *)
Record s_frame := SFrame {
  sf_start : s_start; sf_inter : s_inter; sf_disable_end : bool; sf_tiles : tile_info;
  sf_base_q : Z; sf_deltas : list Z; sf_seg : s_seg; sf_lossless : bool;
  sf_loop : option (list Z * Z); sf_cdef : option (Z * Z * list ((Z * Z) * option (Z * Z)));
  sf_lr : option (list Z * option (Z * Z)); sf_tx_select : bool; sf_select : bool; sf_skip_allowed : bool; sf_skip : bool;
  sf_warped : bool; sf_reduced_tx : bool; sf_grain : option s_grain }.

Definition s_prev_features (d : s_dpb) (refs : list Z) (primary : Z) : list (list (bool * Z)) :=
  if primary =? 7 then no_features
  else match nth_error refs (Z.to_nat primary) with
       | Some r => match s_at d r with Some x => sl_seg x | None => no_features end
       | None => no_features
       end.
Definition s_hints (d : s_dpb) (refs : list Z) : list Z :=
  map (fun r => match s_at d r with Some x => sl_hint x | None => 0 end) refs.

Definition s_frame_rest (q : s_seq) (d : s_dpb) (x : s_start) (i : s_inter) : parser s_frame :=
  let intra := st_intra x in
  de <- (if q_reduced q || st_disable_cdf x then p_ret true else p_flag) ;;
  ti <- p_tile_info (fst (si_size i)) (snd (si_size i)) ;;
  qp <- s_quant (q_mono q) (q_sep_uv q) ;;
  match qp with
  | (base, deltas, _) =>
      seg <- s_segmentation (st_primary x) (s_prev_features d (si_refs i) (st_primary x)) ;;
      dq <- (if 0 <? base then p_flag else p_ret false) ;;
      if dq then p_fail else
      let lossless := s_coded_lossless base deltas seg in
      lf <- s_loop_filter lossless (si_intrabc i) (q_mono q) ;;
      cdef <- s_cdef lossless (si_intrabc i) (q_cdef q) (q_mono q) ;;
      lr <- (if lossless then p_ret None
             else s_lr_params (q_restoration q) (si_intrabc i) (q_sb128 q) (q_ssx q) (q_ssy q) (if q_mono q then 1 else 3)) ;;
      tx <- (if lossless then p_ret false else p_flag) ;;
      sel <- (if intra then p_ret false else p_flag) ;;
      let skip_allowed := negb intra && sel && q_order_hint q
                          && s_skip_mode_allowed (q_ohbits q) (st_hint x) (s_hints d (si_refs i)) in
      skip <- (if skip_allowed then p_flag else p_ret false) ;;
      warped <- (if intra || st_error_res x || negb (q_warped q) then p_ret false else p_flag) ;;
      red <- p_flag ;;
      gm <- (if intra then p_ret [] else p_repeat 7 p_flag) ;;
      if existsb (fun g : bool => g) gm then p_fail else
      g <- s_film_grain q (st_type x) (st_show x) (st_showable x) ;;
      p_ret {| sf_start := x; sf_inter := i; sf_disable_end := de; sf_tiles := ti; sf_base_q := base; sf_deltas := deltas;
               sf_seg := seg; sf_lossless := lossless; sf_loop := lf; sf_cdef := cdef; sf_lr := lr; sf_tx_select := tx;
               sf_select := sel; sf_skip_allowed := skip_allowed; sf_skip := skip; sf_warped := warped;
               sf_reduced_tx := red; sf_grain := g |}
  end.

(** 5.9.2 uncompressed_header( ) *)
Inductive s_header := SExisting (idx : Z) | SCoded (f : s_frame).
Definition s_uncompressed_header (q : s_seq) (d : s_dpb) : parser s_header :=
  if q_frame_ids q || q_decoder_model q then p_fail else
  ex <- (if q_reduced q then p_ret false else p_flag) ;;
  if ex then idx <- p_f 3 ;; p_ret (SExisting idx) else
  x <- s_frame_start q ;;
  i <- s_inter_part q d x ;;
  f <- s_frame_rest q d x i ;;
  p_ret (SCoded f).

(** 7.20 reference frame update process, as far as kept here *)
Definition s_saved (f : s_frame) : s_slot :=
  SSlot (st_hint (sf_start f)) (fst (si_size (sf_inter f))) (snd (si_size (sf_inter f)))
    (fst (si_render (sf_inter f))) (snd (si_render (sf_inter f))) (ss_features (sf_seg f)) (st_type (sf_start f)).
Fixpoint s_refresh (i flags : Z) (x : s_slot) (d : s_dpb) : s_dpb :=
  match d with
  | [] => []
  | y :: r => (if Z.testbit flags i then Some x else y) :: s_refresh (i + 1) flags x r
  end.

(** The headers of a stream, with what follows each header.  Showing an
    existing key frame (which refreshes every slot) is not described here and
    refused. *)
Fixpoint s_headers (q : s_seq) (d : s_dpb) (l : list (list bool)) : option (list (s_header * list bool)) :=
  match l with
  | [] => Some []
  | b :: r =>
      match s_uncompressed_header q d b with
      | None => None
      | Some (x, rest) =>
          match (match x with
                 | SExisting idx =>
                     match s_at d idx with
                     | Some y => if sl_type y =? KEY_FRAME then None else Some d
                     | None => None
                     end
                 | SCoded f => Some (s_refresh 0 (st_refresh (sf_start f)) (s_saved f) d)
                 end) with
          | None => None
          | Some d => match s_headers q d r with Some y => Some ((x, rest) :: y) | None => None end
          end
      end
  end.
