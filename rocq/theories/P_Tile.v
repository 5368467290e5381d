(** Properties C18-C21 and C50: tiling, the tile part of the frame header,
    configuration validation. *)
From Verif Require Import Base Bits Tile_model Tile_spec Tile_proof Tile_main Config_model Config_proof.

(** A configuration used by the examples and the counterexamples: the defaults
    of EncoderConfig at 30 frames per second. *)
Definition sample (w h : Z) (ch : chroma) (tiles : Z) (num den : Z) (level : option Z) : vconfig :=
  {| vc_width := w; vc_height := h; vc_still := false; vc_sar_num := 1; vc_sar_den := 1;
     vc_render_w := w; vc_render_h := h; vc_rdo_lookahead := 40; vc_max_kf := 240;
     vc_tile_cols := 0; vc_tile_rows := 0; vc_tiles := tiles; vc_tb_num := num; vc_tb_den := den;
     vc_reservoir := None; vc_switch_interval := 0; vc_low_latency := false; vc_timing_info := false;
     vc_srgb := None; vc_full_range := false; vc_chroma := ch; vc_level := level;
     vc_emit_pass := false; vc_summary := false; vc_bitrate := 0 |}.

(** ** C18 *)

(** [region] gives one rectangle per tile; the point lies in exactly one. *)
Definition in_exactly_one (n : Z) (region : Z -> option rect) (x y : Z) : Prop :=
  exists i, (0 <= i < n /\ exists r, region i = Some r /\ in_rect r x y) /\
    forall j, 0 <= j < n -> (exists r, region j = Some r /\ in_rect r x y) -> j = i.
Definition fits (q : rect) (W H : Z) : Prop :=
  0 <= r_x q /\ 0 <= r_y q /\ 0 < r_w q /\ 0 < r_h q /\ r_x q + r_w q <= W /\ r_y q + r_h q <= H.

(** Whatever tile counts are requested, if a tiling is computed then:
    the frame is padded to a multiple of 8; every tile view exists, is not
    empty and lies inside the padded frame; each pixel of each plane and each
    4x4 unit belongs to exactly one view; and the writable regions of two
    different tiles (which may extend past the frame) never meet. *)
Definition C18_partition_stmt : Prop :=
  forall w h rl tile_cols tile_rows tiles is_422 t, 1 <= w <= 65535 -> 1 <= h <= 65535 ->
  sequence_tiling w h rl tile_cols tile_rows tiles is_422 = Some t ->
  let n := t_rows t * t_cols t in
  let W := t_fw t in let H := t_fh t in
  let region f i := option_map f (tile_view_at t i) in
  w <= W < w + 8 /\ W mod 8 = 0 /\ h <= H < h + 8 /\ H mod 8 = 0 /\ 1 <= n /\
  tile_view_at t n = None /\
  (forall i, 0 <= i < n -> exists v, tile_view_at t i = Some v /\
     fits (v_rect v) W H /\ fits (v_blocks v) (W / 4) (H / 4) /\
     r_x (v_rect v) = 4 * r_x (v_blocks v) /\ r_y (v_rect v) = 4 * r_y (v_blocks v) /\
     r_w (v_rect v) = 4 * r_w (v_blocks v) /\ r_h (v_rect v) = 4 * r_h (v_blocks v)) /\
  (forall x y, 0 <= x < W / 4 -> 0 <= y < H / 4 -> in_exactly_one n (region v_blocks) x y) /\
  (forall xdec ydec x y, 0 <= xdec <= 1 -> 0 <= ydec <= 1 -> 0 <= x < W / 2 ^ xdec -> 0 <= y < H / 2 ^ ydec ->
     in_exactly_one n (region (fun v => decimated xdec ydec (v_rect v))) x y) /\
  (forall xdec ydec i j vi vj x y, 0 <= xdec <= 1 -> 0 <= ydec <= 1 -> 0 <= i < n -> 0 <= j < n ->
     tile_view_at t i = Some vi -> tile_view_at t j = Some vj ->
     in_rect (decimated xdec ydec (v_rec vi)) x y -> in_rect (decimated xdec ydec (v_rec vj)) x y -> i = j).

Lemma sequence_facts w h rl tile_cols tile_rows tiles is_422 t : 1 <= w <= 65535 -> 1 <= h <= 65535 ->
  sequence_tiling w h rl tile_cols tile_rows tiles is_422 = Some t ->
  tiling_facts w h is_422 t (div_ceil (8 * div_ceil w 8) 64) (div_ceil (8 * div_ceil h 8) 64).
Proof.
  intros Hw Hh E. destruct (sequence_tiling_from _ _ _ _ _ _ _ _ E) as (tc & tr & E').
  pose proof (from_target_tiles_ok w h rl tc tr is_422 Hw Hh) as P. rewrite E' in P. destruct P as [P _]. exact P.
Qed.
Lemma eight_pad w : w <= 8 * div_ceil w 8 < w + 8 /\ (8 * div_ceil w 8) mod 8 = 0.
Proof.
  pose proof (div_ceil_bounds w 8 ltac:(lia)). split; [lia|]. rewrite Z.mul_comm. apply Z.mod_mul. lia.
Qed.
Lemma once_of (n : Z) (t : tiling) (f : tile_view -> rect) x y :
  (exists i, (0 <= i < n /\ exists v, tile_view_at t i = Some v /\ in_rect (f v) x y) /\
     forall j, (0 <= j < n /\ exists v, tile_view_at t j = Some v /\ in_rect (f v) x y) -> j = i) ->
  in_exactly_one n (fun i => option_map f (tile_view_at t i)) x y.
Proof.
  intros (i & (Hi & v & Ev & Iv) & U). exists i. split.
  - split; [exact Hi|]. exists (f v). rewrite Ev. split; [reflexivity|exact Iv].
  - intros j Hj (r & Er & Ir). apply U. split; [exact Hj|].
    destruct (tile_view_at t j) as [u|]; [|discriminate]. cbn in Er. injection Er as <-. eauto.
Qed.

Theorem C18_partition : C18_partition_stmt.
Proof.
  intros w h rl tile_cols tile_rows tiles is_422 t Hw Hh E n W H region.
  pose proof (sequence_facts _ _ _ _ _ _ _ _ Hw Hh E) as F.
  pose proof (cols_pos _ _ _ _ _ _ F) as Cp. pose proof (rows_pos _ _ _ _ _ _ F) as Rp.
  pose proof (tf_fw _ _ _ _ _ _ F) as FW. pose proof (tf_fh _ _ _ _ _ _ F) as FH. fold W in FW. fold H in FH.
  destruct (eight_pad w), (eight_pad h).
  rewrite FW, FH. split; [assumption|]. split; [assumption|]. split; [assumption|]. split; [assumption|].
  rewrite <- FW, <- FH.
  split. { unfold n. assert (1 * 1 <= t_rows t * t_cols t) by (apply Z.mul_le_mono_nonneg; lia). lia. }
  split. { unfold tile_view_at. fold n. now rewrite Z.ltb_irrefl. }
  split.
  { intros i Hi. destruct (grid_coords (t_cols t) (t_rows t) i ltac:(lia) Hi) as (Hc & Hr & _).
    destruct (view_inside _ _ _ _ _ _ F _ _ Hc Hr) as (A & B & _ & _ & _ & _ & C1 & C2 & C3 & C4 & _).
    exists (view_of t (i mod t_cols t) (i / t_cols t)). split; [exact (tile_view_at_eq _ _ _ _ _ _ F i Hi)|].
    repeat (split; [assumption|]). assumption. }
  split. { intros x y Hx Hy. apply once_of. exact (blocks_cover _ _ _ _ _ _ F x y Hx Hy). }
  split. { intros xdec ydec x y Hxd Hyd Hx Hy. apply once_of. exact (views_cover _ _ _ _ _ _ F xdec ydec Hxd Hyd x y Hx Hy). }
  intros xdec ydec i j vi vj x y Hxd Hyd Hi Hj Ei Ej Ii Ij.
  exact (rec_disjoint _ _ _ _ _ _ F xdec ydec i j vi vj x y Hxd Hyd Hi Hj Ei Ej Ii Ij).
Qed.
Print Assumptions C18_partition.

(** 1000x700 with 3 requested columns rounded up to 4 and 2 rows: 8 tiles *)
Example C18_example : match sequence_tiling 1000 700 0 4 2 0 false with
  | Some t => (t_cols t, t_rows t, tile_view_at t 3) | None => (0, 0, None) end =
  (4, 2, Some {| v_sbx := 12; v_sby := 0; v_rect := {| r_x := 768; r_y := 0; r_w := 232; r_h := 384 |};
                 v_rec := {| r_x := 768; r_y := 0; r_w := 256; r_h := 384 |};
                 v_blocks := {| r_x := 192; r_y := 0; r_w := 58; r_h := 96 |} |}).
Proof. vm_compute. reflexivity. Qed.

(** Limits on the number and the width of tiles always hold.  The area of a
    tile is only bounded by 2304 superblocks plus one row and one column. *)
Definition C18_limits_stmt : Prop :=
  forall w h rl tile_cols tile_rows tiles is_422 t, 1 <= w <= 65535 -> 1 <= h <= 65535 ->
  sequence_tiling w h rl tile_cols tile_rows tiles is_422 = Some t ->
  1 <= t_cols t <= 64 /\ 1 <= t_rows t <= 64 /\
  forall i v, 0 <= i -> tile_view_at t i = Some v ->
    r_w (v_rect v) <= 4096 /\
    (is_422 = false -> (r_w (v_rect v) - 64) * (r_h (v_rect v) - 64) <= 4096 * 2304).
Theorem C18_limits_partial : C18_limits_stmt.
Proof.
  intros w h rl tile_cols tile_rows tiles is_422 t Hw Hh E.
  pose proof (sequence_facts _ _ _ _ _ _ _ _ Hw Hh E) as F.
  destruct (tiles_limits _ _ _ _ _ _ F) as (A & B & C & D). split; [exact A|]. split; [exact B|].
  intros i v Hi Ev.
  assert (Hn : 0 <= i < t_rows t * t_cols t).
  { unfold tile_view_at in Ev. destruct (Z.ltb_spec i (t_rows t * t_cols t)); [lia|discriminate]. }
  rewrite (tile_view_at_eq _ _ _ _ _ _ F i Hn) in Ev. injection Ev as <-.
  destruct (grid_coords (t_cols t) (t_rows t) i ltac:(lia) Hn) as (Hc & Hr & _).
  destruct (view_inside _ _ _ _ _ _ F _ _ Hc Hr) as (P & _ & Q1 & Q2 & _). cbv zeta in *.
  destruct P as (_ & _ & P1 & P2 & _).
  set (v := view_of t (i mod t_cols t) (i / t_cols t)) in *.
  split; [clear - Q1 C; lia|]. intros E4. specialize (D E4).
  pose proof (tf_tw _ _ _ _ _ _ F) as Tw. pose proof (tf_th _ _ _ _ _ _ F) as Th.
  assert (U1 : r_w (v_rect v) - 64 <= 64 * (t_tw t - 1)) by (clear - Q1; lia).
  assert (U2 : r_h (v_rect v) - 64 <= 64 * (t_th t - 1)) by (clear - Q2; lia).
  destruct (Z.le_gt_cases (r_w (v_rect v) - 64) 0) as [L|L]; destruct (Z.le_gt_cases (r_h (v_rect v) - 64) 0) as [L'|L'].
  - assert (S1 : (64 - r_w (v_rect v)) * (64 - r_h (v_rect v)) <= 64 * 64) by (apply Z.mul_le_mono_nonneg; clear - L L' P1 P2; lia).
    replace ((r_w (v_rect v) - 64) * (r_h (v_rect v) - 64)) with ((64 - r_w (v_rect v)) * (64 - r_h (v_rect v))) by ring.
    clear - S1; lia.
  - pose proof (Z.mul_nonpos_nonneg (r_w (v_rect v) - 64) (r_h (v_rect v) - 64) L ltac:(clear - L'; lia)) as S1. clear - S1; lia.
  - pose proof (Z.mul_nonneg_nonpos (r_w (v_rect v) - 64) (r_h (v_rect v) - 64) ltac:(clear - L; lia) L') as S1. clear - S1; lia.
  - assert (S1 : (r_w (v_rect v) - 64) * (r_h (v_rect v) - 64) <= (64 * (t_tw t - 1)) * (64 * (t_th t - 1)))
      by (apply Z.mul_le_mono_nonneg; clear - L L' U1 U2; lia).
    replace ((64 * (t_tw t - 1)) * (64 * (t_th t - 1))) with (4096 * ((t_tw t - 1) * (t_th t - 1))) in S1 by ring.
    clear - S1 D; lia.
Qed.
Print Assumptions C18_limits_partial.

(** A tile of more than 4096x2304 samples: 4160x4480 at one frame per second
    is accepted and split into two tiles of 2112x4480. *)
Theorem C18_area_refuted : exists c t v, validate c = None /\ typed c /\
  sequence_new c (rate_limit_log2 (vc_width c) (vc_height c) (vc_tb_num c) (vc_tb_den c)) = Some t /\
  tile_view_at t 0 = Some v /\ 4096 * 2304 < r_w (v_rect v) * r_h (v_rect v).
Proof.
  exists (sample 4160 4480 Cs420 0 1 1 None). eexists. eexists. split; [vm_compute; reflexivity|].
  split. { unfold typed. cbn [sample vc_width vc_height vc_tile_cols vc_tile_rows vc_tiles vc_tb_num vc_tb_den vc_level].
           change (2 ^ 64) with 18446744073709551616. lia. }
  split; [vm_compute; reflexivity|]. split; [vm_compute; reflexivity|]. vm_compute. reflexivity.
Qed.
Print Assumptions C18_area_refuted.

(** ** C19 *)

(** What a decoder must learn from the header: the boundaries of every tile
    in 4x4 units, the tile counts, which tile provides the CDFs and the size of
    the size fields. *)
Definition describes (ti : tile_info) (t : tiling) (ctx_id tsb : Z) : Prop :=
  zlen (ti_col_starts ti) = t_cols t + 1 /\ zlen (ti_row_starts ti) = t_rows t + 1 /\
  (forall i v, 0 <= i -> tile_view_at t i = Some v ->
     let c := Z.to_nat (i mod t_cols t) in let r := Z.to_nat (i / t_cols t) in
     nth c (ti_col_starts ti) 0 = r_x (v_blocks v) /\
     nth (S c) (ti_col_starts ti) 0 = r_x (v_blocks v) + r_w (v_blocks v) /\
     nth r (ti_row_starts ti) 0 = r_y (v_blocks v) /\
     nth (S r) (ti_row_starts ti) 0 = r_y (v_blocks v) + r_h (v_blocks v)) /\
  ti_context_update_tile_id ti = ctx_id /\
  (1 < t_rows t * t_cols t -> ti_tile_size_bytes ti = Some tsb).

Definition C19_stmt (cond : bool -> tiling -> Prop) : Prop :=
  forall w h rl tile_cols tile_rows tiles is_422 t ctx_id tsb, 1 <= w <= 65535 -> 1 <= h <= 65535 ->
  sequence_tiling w h rl tile_cols tile_rows tiles is_422 = Some t ->
  cond is_422 t -> 0 <= ctx_id < t_rows t * t_cols t -> 1 <= tsb <= 4 ->
  exists ti, round_trips (w_tile_info t (align_shift 6 w) (align_shift 6 h) ctx_id tsb) (p_tile_info w h) ti /\
             describes ti t ctx_id tsb.

Lemma sb_of n : div_ceil (8 * div_ceil n 8) 64 = align_shift 6 n.
Proof.
  rewrite align_shift_eq. change (2 ^ 6) with 64. apply div_ceil_spec; [lia|].
  pose proof (div_ceil_bounds n 8 ltac:(lia)). pose proof (div_ceil_bounds n 64 ltac:(lia)). lia.
Qed.
Lemma start_at m size total j : 0 <= j < m -> m = div_ceil total (4 * size) -> 1 <= size -> total mod 4 = 0 ->
  let l := map (fun k => Z.of_nat k * size) (seq 0 (Z.to_nat m)) ++ [total / 4] in
  nth (Z.to_nat j) l 0 = j * size /\ nth (S (Z.to_nat j)) l 0 = j * size + Z.min size (total / 4 - j * size).
Proof.
  intros Hj Em Hs Ht l. set (f := fun k => Z.of_nat k * size).
  assert (N : forall k, (k < Z.to_nat m)%nat -> nth k l 0 = Z.of_nat k * size).
  { intros k Hk. unfold l. rewrite app_nth1 by (rewrite map_length, seq_length; exact Hk).
    rewrite (nth_indep _ 0 (f 0%nat)) by (rewrite map_length, seq_length; exact Hk).
    change (fun k0 => Z.of_nat k0 * size) with f. rewrite map_nth, seq_nth by assumption. reflexivity. }
  pose proof (div_ceil_bounds total (4 * size) ltac:(lia)) as B. rewrite <- Em in B.
  pose proof (Z.div_mod total 4 ltac:(lia)) as DM. rewrite Ht in DM.
  assert (M1 : j * size <= (m - 1) * size) by (apply Z.mul_le_mono_nonneg_r; lia).
  split; [rewrite N by lia; f_equal; lia|].
  destruct (Z.eq_dec j (m - 1)) as [->|Hne].
  - unfold l. rewrite app_nth2 by (rewrite map_length, seq_length; lia).
    rewrite map_length, seq_length. replace (S (Z.to_nat (m - 1)) - Z.to_nat m)%nat with 0%nat by lia. cbn [nth].
    rewrite Z.min_r by lia. lia.
  - rewrite N by lia. assert ((j + 1) * size <= (m - 1) * size) by (apply Z.mul_le_mono_nonneg_r; lia).
    replace (Z.of_nat (S (Z.to_nat j))) with (j + 1) by lia. rewrite Z.min_l by lia. lia.
Qed.
Lemma starts_plain n size : starts n size 0 = map (fun k => Z.of_nat k * (16 * size)) (seq 0 n).
Proof. unfold starts. apply map_ext. intros k. ring. Qed.
Lemma mi_of n : 2 * ((n + 7) / 8) = 8 * div_ceil n 8 / 4.
Proof.
  replace ((n + 7) / 8) with (div_ceil n 8) by (unfold div_ceil; f_equal; lia).
  replace (8 * div_ceil n 8) with (2 * div_ceil n 8 * 4) by ring. rewrite Z.div_mul by lia. ring.
Qed.

Lemma expected_describes w h is_422 t sbc sbr ctx_id tsb : tiling_facts w h is_422 t sbc sbr ->
  describes (expected_info w h t ctx_id tsb) t ctx_id tsb.
Proof.
  intros F. pose proof (cols_pos _ _ _ _ _ _ F) as Cp. pose proof (rows_pos _ _ _ _ _ _ F) as Rp.
  pose proof (tf_fw _ _ _ _ _ _ F) as FW. pose proof (tf_fh _ _ _ _ _ _ F) as FH.
  pose proof (tf_tw _ _ _ _ _ _ F) as Tw. pose proof (tf_th _ _ _ _ _ _ F) as Th.
  assert (M4 : t_fw t mod 4 = 0 /\ t_fh t mod 4 = 0).
  { destruct (fw8 _ _ _ _ _ _ F) as [A B]. rewrite A, B, !(Z.mul_comm 4), !Z.mod_mul by lia. auto. }
  destruct M4 as [M4 M4'].
  unfold describes, expected_info. cbn [ti_col_starts ti_row_starts ti_context_update_tile_id ti_tile_size_bytes].
  rewrite !starts_plain, !mi_of, <- FW, <- FH.
  split; [unfold zlen; rewrite app_length, map_length, seq_length; cbn [length]; lia|].
  split; [unfold zlen; rewrite app_length, map_length, seq_length; cbn [length]; lia|].
  split; [|split; [reflexivity|]].
  - intros i v Hi Ev. set (c := Z.to_nat (i mod t_cols t)). set (r := Z.to_nat (i / t_cols t)).
    assert (Hn : 0 <= i < t_rows t * t_cols t).
    { unfold tile_view_at in Ev. destruct (Z.ltb_spec i (t_rows t * t_cols t)); [lia|discriminate]. }
    rewrite (tile_view_at_eq _ _ _ _ _ _ F i Hn) in Ev. injection Ev as <-.
    destruct (grid_coords (t_cols t) (t_rows t) i ltac:(lia) Hn) as (Hc & Hr & _).
    destruct (start_at (t_cols t) (16 * t_tw t) (t_fw t) _ Hc) as [A1 A2]; [|lia|exact M4|].
    { rewrite (cols_pix _ _ _ _ _ _ F). f_equal. ring. }
    destruct (start_at (t_rows t) (16 * t_th t) (t_fh t) _ Hr) as [B1 B2]; [|lia|exact M4'|].
    { rewrite (rows_pix _ _ _ _ _ _ F). f_equal. ring. }
    fold c in A1, A2. fold r in B1, B2.
    unfold view_of. cbn [v_blocks r_x r_y r_w r_h].
    rewrite A1, A2, B1, B2. repeat split; ring.
  - intros Hn. destruct (Z.ltb_spec 0 (t_cols_log2 t + t_rows_log2 t)) as [L|L]; [reflexivity|].
    exfalso. destruct (tf_cols_log2 _ _ _ _ _ _ F) as (C0 & C1 & _). destruct (tf_rows_log2 _ _ _ _ _ _ F) as (R0 & R1 & _).
    replace (t_cols_log2 t) with 0 in * by lia. replace (t_rows_log2 t) with 0 in * by lia.
    change (1 * 2 ^ 0) with 1 in *. replace (t_rows t) with 1 in * by lia. replace (t_cols t) with 1 in * by lia. lia.
Qed.

(** Holds for every chroma format except 4:2:2, and for 4:2:2 whenever the
    area rules ask for no minimal number of tiles.  Missing: 4:2:2 frames with
    explicit tile sizes taller than the header can express (see the
    refutation). *)
Theorem C19_partial : C19_stmt (fun is_422 t => is_422 = false \/ t_min_tiles_log2 t = 0).
Proof.
  intros w h rl tile_cols tile_rows tiles is_422 t ctx_id tsb Hw Hh E Hcond Hid Htsb.
  pose proof (sequence_facts _ _ _ _ _ _ _ _ Hw Hh E) as F.
  exists (expected_info w h t ctx_id tsb). split; [|exact (expected_describes _ _ _ _ _ _ _ _ F)].
  rewrite <- !sb_of. apply (tile_info_ok _ _ _ _ _ _ _ _ F Hid Htsb).
  apply (uniform_or_small _ _ _ _ _ _ F Hcond).
Qed.
Print Assumptions C19_partial.

Example C19_example : match sequence_tiling 1000 700 0 4 2 0 false with
  | Some t => match w_tile_info t (align_shift 6 1000) (align_shift 6 700) 5 2 with
              | Some (b, true) => Some (b, option_map fst (p_tile_info 1000 700 b))
              | _ => None end
  | None => None end =
  Some ([true; true; true; false; true; false; true; false; true; false; true],
        Some {| ti_col_starts := [0; 64; 128; 192; 250]; ti_row_starts := [0; 96; 176];
                ti_cols_log2 := 2; ti_rows_log2 := 1; ti_context_update_tile_id := 5; ti_tile_size_bytes := Some 2 |}).
Proof. vm_compute. reflexivity. Qed.

(** 4:2:2, 8064x4352: rows of 34 superblocks are announced with a code that
    ends at 16; the error of the writer is dropped and nothing is written. *)

(** 4:2:2, 8064x4352: rows of 34 superblocks are announced with a code that
    ends at 16; the error of the writer is dropped and nothing is written, so
    that the decoder takes other bits for the height of the first row. *)
Lemma explicit_head f limit total s0 s1 wd bits r l m lm :
  p_ns (Z.min (total - s0) limit) bits = Some (m, lm) -> s1 = s0 + (m + 1) -> s0 < total -> s1 < total ->
  p_explicit_starts (S (S f)) limit total s0 wd bits = Some (r, l) -> exists q, fst r = s0 * 16 :: s1 * 16 :: q.
Proof.
  intros Em Es H0 H1 E. cbn [p_explicit_starts] in E. unfold p_bind in E.
  destruct (Z.ltb_spec s0 total); [|lia]. rewrite Em in E. rewrite <- Es in E.
  destruct (Z.ltb_spec s1 total); [|lia].
  destruct (p_ns _ lm) as [[m2 l2]|]; [|discriminate].
  destruct (p_explicit_starts f _ _ _ _ l2) as [[r3 l3]|]; [|discriminate].
  unfold p_ret in E. cbn [fst] in E. injection E as <- <-. eexists. reflexivity.
Qed.

Lemma explicit_rows w h l ti l' : p_tile_info w h (false :: l) = Some (ti, l') ->
  let sbCols := (2 * ((w + 7) / 8) + 15) / 16 in
  let sbRows := (2 * ((h + 7) / 8) + 15) / 16 in
  let minLog2Tiles := Z.max (s_tl2 (4096 / 64) sbCols) (s_tl2 (4096 * 2304 / 4096) (sbRows * sbCols)) in
  let area := if 0 <? minLog2Tiles then (sbRows * sbCols) / 2 ^ (minLog2Tiles + 1) else sbRows * sbCols in
  let fuel := S (Z.to_nat (sbCols + sbRows)) in
  exists cw lc rw lr, p_explicit_starts fuel (4096 / 64) sbCols 0 0 l = Some (cw, lc) /\
    p_explicit_starts fuel (Z.max (area / snd cw) 1) sbRows 0 0 lc = Some (rw, lr) /\
    ti_row_starts ti = fst rw ++ [2 * ((h + 7) / 8)].
Proof.
  intros E. cbv zeta. unfold p_tile_info in E. cbv zeta in E. unfold p_bind at 1 in E. cbn [p_flag] in E.
  unfold p_bind at 1 2 in E.
  destruct (p_explicit_starts _ (4096 / 64) _ _ _ l) as [[cw lc]|]; [|discriminate].
  unfold p_bind at 1 in E. exists cw, lc.
  destruct (p_explicit_starts _ _ _ _ _ lc) as [[rw lr]|]; [|discriminate]. exists rw, lr.
  split; [reflexivity|]. split; [reflexivity|]. unfold p_ret at 1 in E.
  match type of E with context [if ?b then _ else _] => destruct b end.
  - unfold p_bind in E. destruct (p_f _ lr) as [[v1 l1]|]; [|discriminate].
    destruct (p_f 2 l1) as [[v2 l2]|]; [|discriminate]. unfold p_ret in E. injection E as <- _. reflexivity.
  - unfold p_ret in E. injection E as <- _. reflexivity.
Qed.

Theorem C19_refuted : exists c t bits, validate c = None /\ typed c /\
  sequence_new c (rate_limit_log2 (vc_width c) (vc_height c) (vc_tb_num c) (vc_tb_den c)) = Some t /\
  w_tile_info t (align_shift 6 (vc_width c)) (align_shift 6 (vc_height c)) 0 1 = Some (bits, true) /\
  forall rest ti l, p_tile_info (vc_width c) (vc_height c) (bits ++ rest) = Some (ti, l) -> ~ describes ti t 0 1.
Proof.
  exists (sample 8064 4352 Cs422 0 1 30 None). eexists. eexists. split; [vm_compute; reflexivity|].
  split. { unfold typed. cbn [sample vc_width vc_height vc_tile_cols vc_tile_rows vc_tiles vc_tb_num vc_tb_den vc_level].
           change (2 ^ 64) with 18446744073709551616. lia. }
  split; [vm_compute; reflexivity|]. split; [vm_compute; reflexivity|].
  intros rest ti l E D. destruct D as (_ & _ & D & _).
  specialize (D 0 _ ltac:(lia) eq_refl). cbv zeta in D. destruct D as (_ & _ & _ & D).
  change (nth 1 (ti_row_starts ti) 0 = 544) in D.
  assert (G : exists q, ti_row_starts ti = 0 :: 16 :: q); [|destruct G as (q & G); rewrite G in D; discriminate].
  clear D. cbn [sample vc_width vc_height app] in E. apply explicit_rows in E. cbv zeta in E.
  destruct E as (cw & lc & rw & lr & E1 & E2 & ->).
  assert (X : forall r, p_explicit_starts 195 64 126 0 0
    (true :: true :: true :: true :: true :: true :: true :: true :: true :: true :: true :: true ::
     false :: false :: false :: false :: r) = Some (([0; 1024], 64), false :: false :: false :: false :: r))
    by (intros; vm_compute; reflexivity).
  assert (Y1 : S (Z.to_nat ((2 * ((8064 + 7) / 8) + 15) / 16 + (2 * ((4352 + 7) / 8) + 15) / 16)) = 195%nat) by (vm_compute; reflexivity).
  assert (Y2 : (2 * ((8064 + 7) / 8) + 15) / 16 = 126) by (vm_compute; reflexivity).
  assert (Y3 : (2 * ((4352 + 7) / 8) + 15) / 16 = 68) by (vm_compute; reflexivity).
  assert (Y4 : Z.max (s_tl2 (4096 / 64) 126) (s_tl2 (4096 * 2304 / 4096) (68 * 126)) = 2) by (vm_compute; reflexivity).
  assert (Y5 : 4096 / 64 = 64) by reflexivity.
  rewrite Y1, Y2, Y5, X in E1. injection E1 as <- <-.
  rewrite Y1, Y2, Y3, Y4 in E2. cbn [snd] in E2.
  assert (Y6 : Z.max ((if 0 <? 2 then 68 * 126 / 2 ^ (2 + 1) else 68 * 126) / 64) 1 = 16) by (vm_compute; reflexivity).
  rewrite Y6 in E2.
  assert (Y7 : p_ns (Z.min (68 - 0) 16) (false :: false :: false :: false :: rest) = Some (0, rest)) by (vm_compute; reflexivity).
  destruct (explicit_head 193 16 68 0 1 0 _ rw lr 0 rest Y7 eq_refl ltac:(lia) ltac:(lia) E2) as (q & ->).
  eexists. reflexivity.
Qed.
Print Assumptions C19_refuted.

(** ** C20 *)

(** Creating an encoder for an accepted configuration does not panic, provided
    the frame rate is at most 140 frames per second.  [rl] stands for the
    floating-point rate limit, of which only a relative accuracy of 2^-20 is
    assumed.  Missing: higher frame rates (see the refutation). *)
Theorem C20_partial : forall c rl, validate c = None -> typed c -> vc_tb_den c <= 140 * vc_tb_num c ->
  rate_close (vc_width c) (vc_height c) (vc_tb_num c) (vc_tb_den c) rl ->
  exists t, sequence_new c rl = Some t.
Proof.
  intros c rl V T Hr Hc. destruct (sequence_new_total c rl V T Hr Hc) as (t & E & _). eauto.
Qed.
Print Assumptions C20_partial.
(** The hypothesis on [rl] holds of the exact value. *)
Theorem C20_rate_exact : forall w h num den, 1 <= w -> 1 <= h -> 1 <= num -> 1 <= den ->
  rate_close w h num den (rate_limit_log2 w h num den).
Proof. exact rate_close_exact. Qed.
Print Assumptions C20_rate_exact.

Lemma sample_typed w h ch tiles num den level : 0 <= w < 65536 -> 0 <= h < 65536 -> 0 <= tiles < 65536 ->
  0 <= num < 2 ^ 33 -> 0 <= den < 2 ^ 33 -> match level with Some l => 0 <= l < 256 | None => True end ->
  typed (sample w h ch tiles num den level).
Proof.
  intros. unfold typed. cbn [sample vc_width vc_height vc_tile_cols vc_tile_rows vc_tiles vc_tb_num vc_tb_den vc_level].
  change (2 ^ 64) with 18446744073709551616. change (2 ^ 33) with 8589934592 in *. repeat split; try lia.
  all: destruct level; [lia|exact I].
Qed.
Example C20_example : exists c, validate c = None /\ typed c /\ vc_tb_den c <= 140 * vc_tb_num c /\
  match sequence_new c (rate_limit_log2 (vc_width c) (vc_height c) (vc_tb_num c) (vc_tb_den c)) with
  | Some t => (t_cols t, t_rows t) = (4, 2) | None => False end.
Proof.
  exists (sample 3840 2160 Cs420 8 1001 120000 (Some 17)). split; [vm_compute; reflexivity|]. split; [apply sample_typed; lia|].
  split; [vm_compute; discriminate|]. vm_compute. reflexivity.
Qed.

(** 16x16 at 4294967295 frames per second passes validation and panics. *)
Theorem C20_refuted : exists c, validate c = None /\ typed c /\
  sequence_new c (rate_limit_log2 (vc_width c) (vc_height c) (vc_tb_num c) (vc_tb_den c)) = None.
Proof.
  exists (sample 16 16 Cs420 0 1 4294967295 None). split; [vm_compute; reflexivity|].
  split; [apply sample_typed; lia|vm_compute; reflexivity].
Qed.
Print Assumptions C20_refuted.

(** The same at a frame rate in actual use: 65535x65535 at 240. *)
Theorem C20_refuted_240 : exists c, validate c = None /\ typed c /\ vc_tb_den c = 240 * vc_tb_num c /\
  sequence_new c (rate_limit_log2 (vc_width c) (vc_height c) (vc_tb_num c) (vc_tb_den c)) = None.
Proof.
  exists (sample 65535 65535 Cs420 0 1 240 None). split; [vm_compute; reflexivity|].
  split; [apply sample_typed; lia|]. split; vm_compute; reflexivity.
Qed.
Print Assumptions C20_refuted_240.

(** ** C21 *)

(** AV1 specification, annex A.3: seq_level_idx, MaxPicSize, MaxHSize,
    MaxVSize, MaxDisplayRate *)
Record level_limits := { ll_idx : Z; ll_pic : Z; ll_h : Z; ll_v : Z; ll_rate : Z }.
Definition lv (i p h v r : Z) : level_limits := {| ll_idx := i; ll_pic := p; ll_h := h; ll_v := v; ll_rate := r |}.
Definition spec_levels : list level_limits :=
  [ lv 0 147456 2048 1152 4423680; lv 1 278784 2816 1584 8363520;
    lv 4 665856 4352 2448 19975680; lv 5 1065024 5504 3096 31950720;
    lv 8 2359296 6144 3456 70778880; lv 9 2359296 6144 3456 141557760;
    lv 12 8912896 8192 4352 267386880; lv 13 8912896 8192 4352 534773760;
    lv 14 8912896 8192 4352 1069547520; lv 15 8912896 8192 4352 1069547520;
    lv 16 35651584 16384 8704 1069547520; lv 17 35651584 16384 8704 2139095040;
    lv 18 35651584 16384 8704 4278190080; lv 19 35651584 16384 8704 4278190080 ].

(** The level is one of the specification (or 31, "no limits"), and the
    picture respects its width, height and, except for level 4.1, area.
    Missing: the area for level 4.1 and the display rate (refuted below). *)
Theorem C21_partial : forall c l, validate c = None -> typed c -> vc_level c = Some l ->
  l = 31 \/ exists L, In L spec_levels /\ ll_idx L = l /\
    vc_width c <= ll_h L /\ vc_height c <= ll_v L /\ (l <> 9 -> vc_width c * vc_height c <= ll_pic L).
Proof.
  intros c l V T El. pose proof (ac_level _ (validate_accepted c V) l El) as [L31 G].
  destruct T as (_ & _ & _ & _ & _ & _ & _ & T). rewrite El in T.
  destruct (Z.eq_dec l 31) as [->|N31]; [now left|]. right. specialize (G ltac:(lia)). cbv zeta in G.
  destruct G as (D & P & Hh & Hv).
  assert (I : In l [0;1;2;3;4;5;6;7;8;9;10;11;12;13;14;15;16;17;18;19;20;21;22;23;24;25;26;27;28;29;30]).
  { cbn [In]. lia. }
  clear - D P Hh Hv I.
  cbn [In] in I. repeat (destruct I as [<-|I]; [try discriminate D|]); try contradiction;
  cbn in P, Hh, Hv;
  match goal with
  | |- exists L, In L spec_levels /\ ll_idx L = ?l /\ _ =>
      let L := eval vm_compute in (find (fun L => ll_idx L =? l) spec_levels) in
      match L with Some ?x => exists x end
  end; (split; [unfold spec_levels, lv; cbn [In]; tauto|]); cbn [ll_idx ll_pic ll_h ll_v]; (split; [reflexivity|split; [exact Hh|split; [exact Hv|]]]);
  first [intros _; exact P|intros N; exfalso; apply N; reflexivity].
Qed.
Print Assumptions C21_partial.
Example C21_example : validate (sample 1920 1080 Cs420 0 1 30 (Some 8)) = None /\
  validate (sample 1920 1280 Cs420 0 1 30 (Some 8)) = Some LevelConstraintsExceeded.
Proof. split; vm_compute; reflexivity. Qed.

(** Level 4.1 admits pictures ten times too large. *)
Theorem C21_pic_size_refuted : exists c L, validate c = None /\ typed c /\ In L spec_levels /\ vc_level c = Some (ll_idx L) /\
  ll_pic L < vc_width c * vc_height c.
Proof.
  exists (sample 6144 3456 Cs420 0 1 5 (Some 9)), (lv 9 2359296 6144 3456 141557760).
  split; [vm_compute; reflexivity|]. split; [apply sample_typed; lia|]. split; [unfold spec_levels; cbn [In]; tauto|].
  split; [reflexivity|vm_compute; reflexivity].
Qed.
Print Assumptions C21_pic_size_refuted.

(** The display rate is not limited: the check divides by the frame rate
    instead of multiplying.  1920x1080 at 600 frames per second is accepted for
    level 4.0, which allows 70778880 samples per second. *)
Theorem C21_display_rate_refuted : exists c L, validate c = None /\ typed c /\ In L spec_levels /\ vc_level c = Some (ll_idx L) /\
  ll_rate L * vc_tb_num c < vc_width c * vc_height c * vc_tb_den c.
Proof.
  exists (sample 1920 1080 Cs420 0 1 600 (Some 8)), (lv 8 2359296 6144 3456 70778880).
  split; [vm_compute; reflexivity|]. split; [apply sample_typed; lia|]. split; [unfold spec_levels; cbn [In]; tauto|].
  split; [reflexivity|vm_compute; reflexivity].
Qed.
Print Assumptions C21_display_rate_refuted.

(** ** C50 *)

(** The number of tiles asked for is reached whenever the search does not run
    to its end; it ends with one superblock per tile or with a grid computed
    from a request of all but one of the possible halvings. *)
Theorem C50_partial : forall c rl, validate c = None -> typed c -> vc_tb_den c <= 140 * vc_tb_num c ->
  rate_close (vc_width c) (vc_height c) (vc_tb_num c) (vc_tb_den c) rl -> 0 < vc_tiles c ->
  exists t, sequence_new c rl = Some t /\
    (vc_tiles c <= t_rows t * t_cols t \/
     t_max_rows_log2 t + t_max_cols_log2 t = 0 \/
     exists tc tr, tc + tr + 1 = t_max_rows_log2 t + t_max_cols_log2 t /\
       from_target_tiles (vc_width c) (vc_height c) rl tc tr (chroma_eqb (vc_chroma c) Cs422) = Some t).
Proof.
  intros c rl V T Hr Hc Hn. destruct (sequence_new_total c rl V T Hr Hc) as (t & E & G). exists t. split; [exact E|exact (G Hn)].
Qed.
Print Assumptions C50_partial.
Example C50_example : match sequence_new (sample 1920 1080 Cs420 9 1 30 None) (rate_limit_log2 1920 1080 1 30) with
  | Some t => (t_cols t, t_rows t) | None => (0, 0) end = (4, 4).
Proof. vm_compute. reflexivity. Qed.

(** 128x128 with four tiles requested gives two, although a grid of four
    tiles exists for that picture. *)
Theorem C50_refuted : exists c t t', validate c = None /\ typed c /\
  sequence_new c (rate_limit_log2 (vc_width c) (vc_height c) (vc_tb_num c) (vc_tb_den c)) = Some t /\
  t_rows t * t_cols t < vc_tiles c /\
  from_target_tiles (vc_width c) (vc_height c) (rate_limit_log2 (vc_width c) (vc_height c) (vc_tb_num c) (vc_tb_den c)) 1 1
    (chroma_eqb (vc_chroma c) Cs422) = Some t' /\
  t_rows t' * t_cols t' = vc_tiles c.
Proof.
  exists (sample 128 128 Cs420 4 1 30 None). eexists. eexists. split; [vm_compute; reflexivity|].
  split; [apply sample_typed; lia|]. split; [vm_compute; reflexivity|]. split; [vm_compute; reflexivity|].
  split; vm_compute; reflexivity.
Qed.
Print Assumptions C50_refuted.
