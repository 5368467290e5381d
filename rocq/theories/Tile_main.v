(** Partition of the frame by the tile views, and the tile part of the header. *)
From Verif Require Import Base Bits Tile_model Tile_spec Tile_proof.

Section Main.
Variables (w h : Z) (is_422 : bool) (t : tiling) (sbc sbr : Z).
Hypothesis F : tiling_facts w h is_422 t sbc sbr.

Let view := view_of t.

Lemma view_inside c r : 0 <= c < t_cols t -> 0 <= r < t_rows t ->
  let v := view c r in
  let fits (q : rect) W H := 0 <= r_x q /\ 0 <= r_y q /\ 0 < r_w q /\ 0 < r_h q /\ r_x q + r_w q <= W /\ r_y q + r_h q <= H in
  fits (v_rect v) (t_fw t) (t_fh t) /\ fits (v_blocks v) (t_fw t / 4) (t_fh t / 4) /\
  r_w (v_rect v) <= r_w (v_rec v) <= 64 * t_tw t /\ r_h (v_rect v) <= r_h (v_rec v) <= 64 * t_th t /\
  r_x (v_rec v) = r_x (v_rect v) /\ r_y (v_rec v) = r_y (v_rect v) /\
  r_x (v_rect v) = 4 * r_x (v_blocks v) /\ r_y (v_rect v) = 4 * r_y (v_blocks v) /\
  r_w (v_rect v) = 4 * r_w (v_blocks v) /\ r_h (v_rect v) = 4 * r_h (v_blocks v) /\
  r_x (v_rect v) = 64 * v_sbx v /\ r_y (v_rect v) = 64 * v_sby v.
Proof.
  intros Hc Hr. destruct (starts_ok w h is_422 t sbc sbr F c r Hc Hr) as [Sx Sy].
  destruct (fw8 w h is_422 t sbc sbr F) as [W8 H8].
  pose proof (tf_tw _ _ _ _ _ _ F) as Tw. pose proof (tf_th _ _ _ _ _ _ F) as Th.
  unfold view, view_of. cbn [v_rect v_rec v_blocks v_sbx v_sby r_x r_y r_w r_h].
  assert (Gx : c * (64 * t_tw t) = 4 * (c * (16 * t_tw t))) by ring.
  assert (Gy : r * (64 * t_th t) = 4 * (r * (16 * t_th t))) by ring.
  set (x := c * (64 * t_tw t)) in *. set (y := r * (64 * t_th t)) in *.
  set (bx := c * (16 * t_tw t)) in *. set (by_ := r * (16 * t_th t)) in *.
  set (wd := Z.min (64 * t_tw t) (t_fw t - x)) in *. set (hd := Z.min (64 * t_th t) (t_fh t - y)) in *.
  assert (Wd : 0 < wd <= 64 * t_tw t) by lia. assert (Hd : 0 < hd <= 64 * t_th t) by lia.
  pose proof (div_ceil_bounds wd 64 ltac:(lia)) as B1. pose proof (div_ceil_bounds hd 64 ltac:(lia)) as B2.
  assert (C1 : div_ceil wd 64 <= t_tw t) by (apply div_ceil_le; lia).
  assert (C2 : div_ceil hd 64 <= t_th t) by (apply div_ceil_le; lia).
  assert (Ex : x = 64 * (c * t_tw t)) by (unfold x; ring).
  assert (Ey : y = 64 * (r * t_th t)) by (unfold y; ring).
  clear - Sx Sy W8 H8 Tw Th Gx Gy Wd Hd B1 B2 C1 C2 Ex Ey. subst wd hd.
  repeat split; lia.
Qed.

(** a decimation of 0 or 1 *)
Lemma dec_grid d s n c : 0 <= d <= 1 -> 0 <= s -> 0 <= n ->
  c * (64 * s) / 2 ^ d = c * (64 * s / 2 ^ d) /\
  Z.min (64 * s) (8 * n - c * (64 * s)) / 2 ^ d = Z.min (64 * s / 2 ^ d) (8 * n / 2 ^ d - c * (64 * s / 2 ^ d)) /\
  64 * s / 2 ^ d = (64 / 2 ^ d) * s.
Proof.
  intros Hd Hs Hn. assert (d = 0 \/ d = 1) as [-> | ->] by lia.
  - change (2 ^ 0) with 1. rewrite !Z.div_1_r. repeat split; reflexivity.
  - change (2 ^ 1) with 2. change (64 / 2) with 32.
    replace (64 * s) with (32 * s * 2) by ring. rewrite Z.div_mul by lia.
    replace (c * (32 * s * 2)) with (c * (32 * s) * 2) by ring. rewrite Z.div_mul by lia.
    replace (8 * n) with (4 * n * 2) by ring. rewrite Z.div_mul by lia. split; [reflexivity|]. split; [|reflexivity].
    replace (Z.min (32 * s * 2) (4 * n * 2 - c * (32 * s) * 2)) with (Z.min (32 * s) (4 * n - c * (32 * s)) * 2) by lia.
    apply Z.div_mul. lia.
Qed.
Lemma dec_size_pos d s : 0 <= d <= 1 -> 1 <= s -> 0 < 64 * s / 2 ^ d.
Proof.
  intros Hd Hs. assert (d = 0 \/ d = 1) as [-> | ->] by lia.
  - change (2 ^ 0) with 1. rewrite Z.div_1_r. lia.
  - change (2 ^ 1) with 2. replace (64 * s) with (32 * s * 2) by ring. rewrite Z.div_mul by lia. lia.
Qed.
Lemma dec_count d n s : 0 <= d <= 1 -> 1 <= s -> 0 <= n ->
  div_ceil (8 * n / 2 ^ d) (64 * s / 2 ^ d) = div_ceil (8 * n) (64 * s).
Proof.
  intros Hd Hs Hn. assert (d = 0 \/ d = 1) as [-> | ->] by lia.
  - change (2 ^ 0) with 1. rewrite !Z.div_1_r. reflexivity.
  - change (2 ^ 1) with 2. replace (64 * s) with (32 * s * 2) by ring. replace (8 * n) with (4 * n * 2) by ring.
    rewrite !Z.div_mul by lia. apply div_ceil_spec; [lia|].
    pose proof (div_ceil_bounds (4 * n * 2) (32 * s * 2) ltac:(lia)). lia.
Qed.

Lemma views_cover xdec ydec : 0 <= xdec <= 1 -> 0 <= ydec <= 1 ->
  forall x y, 0 <= x < t_fw t / 2 ^ xdec -> 0 <= y < t_fh t / 2 ^ ydec ->
  exists i, (0 <= i < t_rows t * t_cols t /\
             exists v, tile_view_at t i = Some v /\ in_rect (decimated xdec ydec (v_rect v)) x y) /\
            forall j, (0 <= j < t_rows t * t_cols t /\
                       exists v, tile_view_at t j = Some v /\ in_rect (decimated xdec ydec (v_rect v)) x y) -> j = i.
Proof.
  intros Hxd Hyd x y Hx Hy.
  pose proof (tf_tw _ _ _ _ _ _ F) as Tw. pose proof (tf_th _ _ _ _ _ _ F) as Th.
  pose proof (tf_fw _ _ _ _ _ _ F) as Fw. pose proof (tf_fh _ _ _ _ _ _ F) as Fh.
  pose proof (cols_pix w h is_422 t sbc sbr F) as Cp. pose proof (rows_pix w h is_422 t sbc sbr F) as Rp.
  pose proof (cols_pos w h is_422 t sbc sbr F) as Cpos. pose proof (rows_pos w h is_422 t sbc sbr F) as Rpos.
  assert (Nw : 0 <= div_ceil w 8).
  { pose proof (tf_sbc_b _ _ _ _ _ _ F). pose proof (tf_sbc _ _ _ _ _ _ F) as E. rewrite Fw in E.
    destruct (Z.le_gt_cases 0 (div_ceil w 8)); [assumption|]. pose proof (div_ceil_bounds (8 * div_ceil w 8) 64 ltac:(lia)). lia. }
  assert (Nh : 0 <= div_ceil h 8).
  { pose proof (tf_sbr_b _ _ _ _ _ _ F). pose proof (tf_sbr _ _ _ _ _ _ F) as E. rewrite Fh in E.
    destruct (Z.le_gt_cases 0 (div_ceil h 8)); [assumption|]. pose proof (div_ceil_bounds (8 * div_ceil h 8) 64 ltac:(lia)). lia. }
  destruct (grid_cover w h is_422 t sbc sbr F
              (fun i => match tile_view_at t i with Some v => Some (decimated xdec ydec (v_rect v)) | None => None end)
              (64 * t_tw t / 2 ^ xdec) (64 * t_th t / 2 ^ ydec) (t_fw t / 2 ^ xdec) (t_fh t / 2 ^ ydec))
    with (x := x) (y := y) as (i & (Hi & r & Er & Hin) & U); try assumption.
  - apply dec_size_pos; lia.
  - apply dec_size_pos; lia.
  - rewrite Cp, Fw. symmetry. apply dec_count; lia.
  - rewrite Rp, Fh. symmetry. apply dec_count; lia.
  - intros i Hi. rewrite (tile_view_at_eq w h is_422 t sbc sbr F i Hi).
    unfold view_of, decimated. cbn [v_rect r_x r_y r_w r_h].
    destruct (dec_grid xdec (t_tw t) (div_ceil w 8) (i mod t_cols t) Hxd ltac:(lia) Nw) as (E1 & E2 & _).
    destruct (dec_grid ydec (t_th t) (div_ceil h 8) (i / t_cols t) Hyd ltac:(lia) Nh) as (E3 & E4 & _).
    rewrite Fw, Fh, E1, E2, E3, E4. reflexivity.
  - exists i. split.
    + split; [exact Hi|]. destruct (tile_view_at t i) as [v|]; [|discriminate]. injection Er as <-. eauto.
    + intros j (Hj & v & Ev & Hv). apply U. split; [exact Hj|]. rewrite Ev. eauto.
Qed.

Lemma blocks_cover : forall x y, 0 <= x < t_fw t / 4 -> 0 <= y < t_fh t / 4 ->
  exists i, (0 <= i < t_rows t * t_cols t /\ exists v, tile_view_at t i = Some v /\ in_rect (v_blocks v) x y) /\
            forall j, (0 <= j < t_rows t * t_cols t /\
                       exists v, tile_view_at t j = Some v /\ in_rect (v_blocks v) x y) -> j = i.
Proof.
  intros x y Hx Hy.
  pose proof (tf_tw _ _ _ _ _ _ F) as Tw. pose proof (tf_th _ _ _ _ _ _ F) as Th.
  destruct (fw8 w h is_422 t sbc sbr F) as [W8 H8].
  pose proof (cols_pix w h is_422 t sbc sbr F) as Cp. pose proof (rows_pix w h is_422 t sbc sbr F) as Rp.
  destruct (grid_cover w h is_422 t sbc sbr F
              (fun i => match tile_view_at t i with Some v => Some (v_blocks v) | None => None end)
              (16 * t_tw t) (16 * t_th t) (t_fw t / 4) (t_fh t / 4))
    with (x := x) (y := y) as (i & (Hi & r & Er & Hin) & U); try assumption; try lia.
  - rewrite Cp. apply div_ceil_spec; [lia|]. pose proof (div_ceil_bounds (t_fw t / 4) (16 * t_tw t) ltac:(lia)). lia.
  - rewrite Rp. apply div_ceil_spec; [lia|]. pose proof (div_ceil_bounds (t_fh t / 4) (16 * t_th t) ltac:(lia)). lia.
  - intros i Hi. rewrite (tile_view_at_eq w h is_422 t sbc sbr F i Hi). reflexivity.
  - exists i. split.
    + split; [exact Hi|]. destruct (tile_view_at t i) as [v|]; [|discriminate]. injection Er as <-. eauto.
    + intros j (Hj & v & Ev & Hv). apply U. split; [exact Hj|]. rewrite Ev. eauto.
Qed.

Lemma rec_disjoint xdec ydec i j vi vj x y : 0 <= xdec <= 1 -> 0 <= ydec <= 1 ->
  0 <= i < t_rows t * t_cols t -> 0 <= j < t_rows t * t_cols t ->
  tile_view_at t i = Some vi -> tile_view_at t j = Some vj ->
  in_rect (decimated xdec ydec (v_rec vi)) x y -> in_rect (decimated xdec ydec (v_rec vj)) x y -> i = j.
Proof.
  intros Hxd Hyd Hi Hj Ei Ej Ini Inj.
  pose proof (cols_pos w h is_422 t sbc sbr F) as Cpos.
  pose proof (tf_tw _ _ _ _ _ _ F) as Tw. pose proof (tf_th _ _ _ _ _ _ F) as Th.
  rewrite (tile_view_at_eq w h is_422 t sbc sbr F i Hi) in Ei. injection Ei as <-.
  rewrite (tile_view_at_eq w h is_422 t sbc sbr F j Hj) in Ej. injection Ej as <-.
  destruct (grid_coords (t_cols t) (t_rows t) i ltac:(lia) Hi) as (Ci & Ri & Eqi).
  destruct (grid_coords (t_cols t) (t_rows t) j ltac:(lia) Hj) as (Cj & Rj & Eqj).
  assert (Key : forall d s k n p, 0 <= d <= 1 -> 1 <= s -> n <= 64 * s ->
    k * (64 * s) / 2 ^ d <= p < k * (64 * s) / 2 ^ d + n / 2 ^ d -> p / (64 * s / 2 ^ d) = k).
  { intros d s k n p Hd Hs Hn Hp. symmetry.
    destruct (dec_grid d s 0 k Hd ltac:(lia) ltac:(lia)) as (E1 & _ & _). rewrite E1 in Hp.
    assert (n / 2 ^ d <= 64 * s / 2 ^ d) by (apply Z.div_le_mono; [apply pow2_pos; lia|lia]).
    apply Z.div_unique with (p - k * (64 * s / 2 ^ d)); [|ring]. left. lia. }
  pose proof (view_inside _ _ Ci Ri) as Vi. pose proof (view_inside _ _ Cj Rj) as Vj. cbv zeta in Vi, Vj. unfold view in Vi, Vj.
  destruct Vi as (_ & _ & (_ & Wi) & (_ & Hi') & _). destruct Vj as (_ & _ & (_ & Wj) & (_ & Hj') & _).
  destruct Ini as [Xi Yi], Inj as [Xj Yj]. unfold decimated in *. cbn [r_x r_y r_w r_h] in *.
  unfold view_of in Xi, Yi, Xj, Yj, Wi, Hi', Wj, Hj'. cbn [v_rec r_x r_y r_w r_h] in *.
  rewrite Eqi, Eqj.
  rewrite <- (Key xdec (t_tw t) (i mod t_cols t) _ x Hxd ltac:(lia) Wi Xi).
  rewrite <- (Key xdec (t_tw t) (j mod t_cols t) _ x Hxd ltac:(lia) Wj Xj).
  rewrite <- (Key ydec (t_th t) (i / t_cols t) _ y Hyd ltac:(lia) Hi' Yi).
  rewrite <- (Key ydec (t_th t) (j / t_cols t) _ y Hyd ltac:(lia) Hj' Yj). reflexivity.
Qed.

(** ** Limits *)
Lemma tiles_limits : 1 <= t_cols t <= 64 /\ 1 <= t_rows t <= 64 /\ 64 * t_tw t <= 4096 /\
  (is_422 = false -> (t_tw t - 1) * (t_th t - 1) <= 2304).
Proof.
  pose proof (cols_pos w h is_422 t sbc sbr F) as Cpos. pose proof (rows_pos w h is_422 t sbc sbr F) as Rpos.
  pose proof (tf_cols_log2 _ _ _ _ _ _ F) as FCL. pose proof (tf_rows_log2 _ _ _ _ _ _ F) as FRL. destruct F.
  assert (Mc : t_max_cols_log2 t <= 6) by (apply (is_tile_log2_le 1 (Z.min sbc 64)); [lia|assumption|change (1 * 2 ^ 6) with 64; lia]).
  assert (Mr : t_max_rows_log2 t <= 6) by (apply (is_tile_log2_le 1 (Z.min sbr 64)); [lia|assumption|change (1 * 2 ^ 6) with 64; lia]).
  split; [|split; [|split]].
  - split; [assumption|]. destruct FCL as (_ & H & _).
    assert (2 ^ t_cols_log2 t <= 2 ^ 6) by (apply Z.pow_le_mono_r; lia). change (2 ^ 6) with 64 in *. lia.
  - split; [assumption|]. destruct FRL as (_ & H & _).
    assert (2 ^ t_rows_log2 t <= 2 ^ 6) by (apply Z.pow_le_mono_r; lia). change (2 ^ 6) with 64 in *. lia.
  - lia.
  - intros E. specialize (tf_tw_eq E). destruct tf_min_tiles as (a & (_ & Ha & _) & Em).
    assert (C0 : 0 <= t_cols_log2 t) by (destruct FCL; assumption).
    assert (R0 : 0 <= t_rows_log2 t) by (destruct FRL; assumption).
    assert (A : a <= t_cols_log2 t + t_rows_log2 t) by lia.
    assert (P : 2 ^ a <= 2 ^ t_cols_log2 t * 2 ^ t_rows_log2 t) by (rewrite <- Z.pow_add_r by lia; apply Z.pow_le_mono_r; lia).
    pose proof (pow2_pos _ C0) as PC. pose proof (pow2_pos _ R0) as PR.
    pose proof (div_ceil_bounds sbc _ PC) as B1. rewrite <- tf_tw_eq in B1.
    pose proof (div_ceil_bounds sbr _ PR) as B2. rewrite <- tf_th_eq in B2.
    set (pc := 2 ^ t_cols_log2 t) in *. set (pr := 2 ^ t_rows_log2 t) in *. set (u := t_tw t - 1) in *. set (v := t_th t - 1) in *.
    assert (U : 0 <= u) by lia. assert (V : 0 <= v) by lia.
    assert (PP : (pc * u) * (pr * v) <= sbc * sbr).
    { apply Z.mul_le_mono_nonneg; try (apply Z.mul_nonneg_nonneg); lia. }
    assert (PQ : (pc * pr) * (u * v) <= (pc * pr) * 2304).
    { replace (pc * pr * (u * v)) with (pc * u * (pr * v)) by ring. lia. }
    apply Z.mul_le_mono_pos_l in PQ; [assumption|]. apply Z.mul_pos_pos; assumption.
Qed.
End Main.

(** ** The header *)
Lemma rt_increments n lo hi fuel : lo <= n <= hi -> hi - lo < Z.of_nat fuel ->
  round_trips (w_increments n lo hi) (p_increment fuel lo hi) n.
Proof.
  intros Hn Hf. unfold w_increments. destruct (Z.ltb_spec n lo); [lia|].
  eexists. split; [reflexivity|]. intros rest.
  assert (G : forall k v f, v = n - Z.of_nat k -> lo <= v -> hi - v < Z.of_nat f ->
    p_increment f v hi ((repeat true k ++ (if n <? hi then [false] else [])) ++ rest) = Some (n, rest)).
  { induction k as [|k IH]; intros v f Ev Hv Hf'.
    - destruct f as [|f]; [lia|]. cbn [p_increment repeat app]. assert (v = n) as -> by lia.
      destruct (Z.ltb_spec n hi); reflexivity.
    - destruct f as [|f]; [lia|]. cbn [p_increment repeat app]. destruct (Z.ltb_spec v hi); [|lia].
      unfold p_bind. cbn [p_flag]. apply IH; lia. }
  apply G; [|lia|lia]. rewrite Z2Nat.id by lia. lia.
Qed.

Lemma rt_quniform n v : 1 <= n < 2 ^ 15 -> 0 <= v < n -> round_trips (wb_quniform n v) (p_ns n) v.
Proof.
  intros Hn Hv. unfold wb_quniform. destruct (Z.ltb_spec 1 n) as [L|L].
  - pose proof (Z.log2_spec n ltac:(lia)) as [S1 S2]. rewrite Z.pow_succ_r in S2 by apply Z.log2_nonneg.
    assert (L15 : Z.log2 n < 15) by (apply Z.log2_lt_pow2; lia).
    assert (L1 : 1 <= Z.log2 n) by (apply Z.log2_le_pow2; [lia|change (2 ^ 1) with 2; lia]).
    destruct (Z.leb_spec 16 (Z.log2 n + 1)); [lia|].
    assert (E : 2 ^ (Z.log2 n + 1) = 2 * 2 ^ Z.log2 n) by (rewrite Z.pow_add_r by lia; change (2 ^ 1) with 2; lia).
    set (p := 2 ^ Z.log2 n) in *. replace (2 ^ (Z.log2 n + 1)) with (2 * p) by lia.
    assert (P15 : p <= 2 ^ 15) by (unfold p; apply Z.pow_le_mono_r; lia).
    unfold p_ns. rewrite E.
    destruct (Z.ltb_spec v (2 * p - n)) as [V|V].
    + eapply rt_last.
      * apply rt_bits; [lia|]. replace (Z.log2 n + 1 - 1) with (Z.log2 n) by lia. fold p. lia.
      * destruct (Z.ltb_spec v (2 * p - n)); [reflexivity|lia].
    + set (m := 2 * p - n) in *. pose proof (Z.div_mod (v - m) 2 ltac:(lia)) as D.
      pose proof (Z.mod_pos_bound (v - m) 2 ltac:(lia)) as M.
      destruct (Z.leb_spec (2 ^ 16) (m + (v - m) / 2)); [lia|].
      eapply rt_bind.
      * apply rt_bits; [lia|]. replace (Z.log2 n + 1 - 1) with (Z.log2 n) by lia. fold p. lia.
      * cbn beta. destruct (Z.ltb_spec (m + (v - m) / 2) m); [lia|].
        eapply rt_last; [apply rt_bits; [lia|change (2 ^ 1) with 2; lia]|]. cbn beta. f_equal. lia.
  - assert (n = 1) as -> by lia. assert (v = 0) as -> by lia. exists []. split; [reflexivity|]. intros rest. reflexivity.
Qed.

Definition starts (n : nat) (size i : Z) : list Z := map (fun j => (i + Z.of_nat j) * size * 16) (seq 0 n).
Lemma starts_S n size i : starts (S n) size i = (i * size * 16) :: starts n size (i + 1).
Proof.
  unfold starts. cbn [seq map]. f_equal; [f_equal; f_equal; lia|]. rewrite <- seq_shift, map_map. apply map_ext. intros j. f_equal. f_equal. lia.
Qed.
Lemma starts_length n size i : length (starts n size i) = n.
Proof. unfold starts. rewrite map_length, seq_length. reflexivity. Qed.
Lemma starts_nth n size i j : (j < n)%nat -> nth j (starts n size i) 0 = (i + Z.of_nat j) * size * 16.
Proof.
  intros H. unfold starts. rewrite (nth_indep _ 0 ((i + Z.of_nat 0) * size * 16)) by (rewrite map_length, seq_length; exact H).
  rewrite (map_nth (fun j => (i + Z.of_nat j) * size * 16)). rewrite seq_nth by assumption. reflexivity.
Qed.

Lemma uniform_starts_ok size total : 1 <= size -> forall n fuel i, (n < fuel)%nat -> 0 <= i ->
  Z.of_nat n = div_ceil (total - i * size) size -> s_uniform_starts fuel size total (i * size) = starts n size i.
Proof.
  intros Hs. induction n as [|n IH]; intros fuel i Hf Hi Hn; (destruct fuel as [|fuel]; [lia|]); cbn [s_uniform_starts].
  - pose proof (div_ceil_bounds (total - i * size) size ltac:(lia)) as B. rewrite <- Hn in B.
    destruct (Z.ltb_spec (i * size) total); [lia|reflexivity].
  - pose proof (div_ceil_bounds (total - i * size) size ltac:(lia)) as B. rewrite <- Hn in B.
    destruct (Z.ltb_spec (i * size) total).
    + rewrite starts_S. f_equal. replace (i * size + size) with ((i + 1) * size) by ring. apply IH; [lia|lia|].
      symmetry. apply div_ceil_spec; lia.
    + exfalso. assert (0 <= size * (Z.of_nat (S n) - 1)) by (apply Z.mul_nonneg_nonneg; lia). lia.
Qed.

Lemma explicit_ok limit size total : 1 <= size <= limit -> 1 <= total < 2 ^ 15 ->
  forall n fuel i sofar acc, (n < fuel)%nat -> 0 <= i -> sofar = Z.min (i * size) total ->
  Z.of_nat n = div_ceil (total - sofar) size ->
  round_trips (explicit_sizes n limit size total sofar) (p_explicit_starts fuel limit total sofar acc)
    (starts n size i, widest_tile n size total sofar acc).
Proof.
  intros Hs Ht. induction n as [|n IH]; intros fuel i sofar acc Hf Hi Eso Hn; (destruct fuel as [|fuel]; [lia|]);
    cbn [p_explicit_starts explicit_sizes widest_tile].
  - pose proof (div_ceil_bounds (total - sofar) size ltac:(lia)) as B. rewrite <- Hn in B.
    destruct (Z.ltb_spec sofar total); [lia|]. apply rt_ret.
  - pose proof (div_ceil_bounds (total - sofar) size ltac:(lia)) as B. rewrite <- Hn in B.
    destruct (Z.ltb_spec sofar total) as [L|L].
    2:{ exfalso. assert (0 <= size * (Z.of_nat (S n) - 1)) by (apply Z.mul_nonneg_nonneg; lia). lia. }
    assert (Eso' : sofar = i * size) by lia. assert (S0 : 0 <= sofar) by (rewrite Eso'; apply Z.mul_nonneg_nonneg; lia).
    destruct (Z.ltb_spec total sofar); [lia|]. cbn [orb].
    set (this := Z.min size (total - sofar)) in *.
    destruct (Z.ltb_spec this 1); [lia|].
    rewrite starts_S. rewrite !u16_id by lia. rewrite (Z.min_comm (total - sofar) limit).
    eapply rt_bind; [apply rt_ign, rt_quniform; lia|]. cbv beta zeta.
    replace (this - 1 + 1) with this by lia.
    eapply rt_last; [apply (IH fuel (i + 1))|].
    + lia.
    + lia.
    + replace ((i + 1) * size) with (i * size + size) by ring. lia.
    + symmetry. apply div_ceil_spec; [lia|].
      destruct (Z.le_gt_cases size (total - sofar)) as [G|G].
      * replace this with size by lia. lia.
      * replace this with (total - sofar) by lia. replace (total - (sofar + (total - sofar))) with 0 by lia.
        assert (Z.of_nat n = 0); [|lia].
        destruct (Z.eq_dec (Z.of_nat n) 0); [assumption|].
        assert (size * 1 <= size * (Z.of_nat (S n) - 1)) by (apply Z.mul_le_mono_nonneg_l; lia). lia.
    + cbn [fst snd]. rewrite Eso'. rewrite (Z.max_comm this acc). reflexivity.
Qed.

Lemma widest_ge n size total : 1 <= size -> forall sofar acc, acc <= widest_tile n size total sofar acc.
Proof.
  intros Hs. induction n as [|n IH]; intros sofar acc; cbn [widest_tile]; [lia|].
  eapply Z.le_trans; [|apply IH]. lia.
Qed.
Lemma widest_le n size total : 1 <= size -> forall sofar acc, acc <= size -> widest_tile n size total sofar acc <= size.
Proof.
  intros Hs. induction n as [|n IH]; intros sofar acc Ha; cbn [widest_tile]; [lia|].
  apply IH. lia.
Qed.
Lemma widest_full n size total : 1 <= size -> (0 < n)%nat -> widest_tile n size total 0 0 = Z.min size total \/ (size <= total /\ widest_tile n size total 0 0 = size) \/ total < size.
Proof.
  intros Hs Hn. destruct (Z.le_gt_cases size total); [|now right; right]. right; left. split; [assumption|].
  destruct n as [|n]; [lia|]. cbn [widest_tile]. rewrite Z.sub_0_r, Z.min_l by assumption. rewrite Z.max_r by lia.
  apply Z.le_antisymm; [apply widest_le; lia|apply widest_ge; lia].
Qed.

Section Header.
Variables (w h : Z) (is_422 : bool) (t : tiling) (sbc sbr ctx_id tsb : Z).
Hypothesis F : tiling_facts w h is_422 t sbc sbr.
Hypotheses (Hid : 0 <= ctx_id < t_rows t * t_cols t) (Htsb : 1 <= tsb <= 4).

(** What the decoder must find. *)
Definition expected_info : tile_info :=
  {| ti_col_starts := starts (Z.to_nat (t_cols t)) (t_tw t) 0 ++ [2 * ((w + 7) / 8)];
     ti_row_starts := starts (Z.to_nat (t_rows t)) (t_th t) 0 ++ [2 * ((h + 7) / 8)];
     ti_cols_log2 := t_cols_log2 t; ti_rows_log2 := t_rows_log2 t;
     ti_context_update_tile_id := ctx_id;
     ti_tile_size_bytes := if 0 <? t_cols_log2 t + t_rows_log2 t then Some tsb else None |}.

(** The largest tile height that the explicit syntax can express. *)
Definition explicit_max_height : Z :=
  let widest := widest_tile (Z.to_nat (t_cols t)) (t_tw t) sbc 0 0 in
  let area := if 0 <? t_min_tiles_log2 t then (sbr * sbc) / 2 ^ (t_min_tiles_log2 t + 1) else sbr * sbc in
  Z.max (area / widest) 1.

Definition uniform_syntax : bool :=
  (align_shift (t_cols_log2 t) sbc =? t_tw t) && (align_shift (t_rows_log2 t) sbr =? t_th t).

Lemma sb_of_mi n : (2 * ((n + 7) / 8) + 15) / 16 = div_ceil (8 * div_ceil n 8) 64.
Proof.
  replace ((n + 7) / 8) with (div_ceil n 8) by (unfold div_ceil; f_equal; lia).
  symmetry. apply div_ceil_spec; [lia|].
  pose proof (Z.div_mod (2 * div_ceil n 8 + 15) 16 ltac:(lia)). pose proof (Z.mod_pos_bound (2 * div_ceil n 8 + 15) 16 ltac:(lia)). lia.
Qed.

Lemma id_bound : ctx_id < 2 ^ (t_rows_log2 t + t_cols_log2 t).
Proof.
  pose proof (tf_cols_log2 _ _ _ _ _ _ F) as FCL. pose proof (tf_rows_log2 _ _ _ _ _ _ F) as FRL. 
  pose proof FCL as (C0 & C1 & _). pose proof FRL as (R0 & R1 & _).
  rewrite Z.pow_add_r by assumption. rewrite Z.mul_1_l in *.
  pose proof (cols_pos w h is_422 t sbc sbr F). pose proof (rows_pos w h is_422 t sbc sbr F).
  assert (t_rows t * t_cols t <= 2 ^ t_rows_log2 t * 2 ^ t_cols_log2 t) by (apply Z.mul_le_mono_nonneg; lia). lia.
Qed.

Lemma zero_log2 : t_cols_log2 t + t_rows_log2 t <= 0 -> ctx_id = 0.
Proof.
  intros H. pose proof id_bound as B. pose proof (tf_cols_log2 _ _ _ _ _ _ F) as FCL. pose proof (tf_rows_log2 _ _ _ _ _ _ F) as FRL.  pose proof FCL as (C0 & _). pose proof FRL as (R0 & _).
  replace (t_rows_log2 t + t_cols_log2 t) with 0 in B by lia. change (2 ^ 0) with 1 in B. lia.
Qed.

Lemma tile_info_ok : uniform_syntax = true \/ t_th t <= explicit_max_height ->
  round_trips (w_tile_info t sbc sbr ctx_id tsb) (p_tile_info w h) expected_info.
Proof.
  intros Hu. pose proof (tf_cols_log2 _ _ _ _ _ _ F) as FCL. pose proof (tf_rows_log2 _ _ _ _ _ _ F) as FRL. pose proof F as F'. destruct F'.
  pose proof (cols_pos w h is_422 t sbc sbr F) as Cp. pose proof (rows_pos w h is_422 t sbc sbr F) as Rp.
  destruct (tiles_limits w h is_422 t sbc sbr F) as (C64 & R64 & _ & _).
  unfold p_tile_info. cbv zeta. rewrite !sb_of_mi. rewrite <- tf_fw, <- tf_fh, <- tf_sbc, <- tf_sbr.
  destruct tf_min_tiles as (a & Ha & Emt).
  change (4096 / 64) with 64. change (4096 * 2304 / 4096) with 2304.
  rewrite (s_tl2_eq 64 sbc (t_min_cols_log2 t)) by (lia || assumption).
  rewrite (s_tl2_eq 1 (Z.min sbc 64) (t_max_cols_log2 t)) by (lia || assumption).
  rewrite (s_tl2_eq 1 (Z.min sbr 64) (t_max_rows_log2 t)) by (lia || assumption).
  assert (Area : sbr * sbc <= 2 ^ 40).
  { clear - tf_sbc_b tf_sbr_b. assert (sbr * sbc <= 1024 * 1024) by (apply Z.mul_le_mono_nonneg; lia). lia. }
  rewrite (s_tl2_eq 2304 (sbr * sbc) a) by (lia || assumption).
  rewrite <- Emt.
  assert (Mc : t_max_cols_log2 t <= 6) by (apply (is_tile_log2_le 1 (Z.min sbc 64)); [lia|assumption|change (1 * 2 ^ 6) with 64; lia]).
  assert (Mr : t_max_rows_log2 t <= 6) by (apply (is_tile_log2_le 1 (Z.min sbr 64)); [lia|assumption|change (1 * 2 ^ 6) with 64; lia]).
  pose proof FCL as (Cl0 & _). pose proof FRL as (Rl0 & _). pose proof tf_min_cols as (Mc0 & _).
  set (fuel := S (Z.to_nat (sbc + sbr))).
  assert (Hfc : (Z.to_nat (t_cols t) < fuel)%nat).
  { assert (t_cols t <= sbc) by (rewrite tf_cols; apply div_ceil_le_self; lia). unfold fuel. lia. }
  assert (Hfr : (Z.to_nat (t_rows t) < fuel)%nat).
  { assert (t_rows t <= sbr) by (rewrite tf_rows; apply div_ceil_le_self; lia). unfold fuel. lia. }
  (* the tail *)
  assert (Tail : forall cs rs, cs = starts (Z.to_nat (t_cols t)) (t_tw t) 0 -> rs = starts (Z.to_nat (t_rows t)) (t_th t) 0 ->
    round_trips (w_if (0 <? t_cols_log2 t + t_rows_log2 t) (w_bits (t_cols_log2 t + t_rows_log2 t) ctx_id >>> w_bits 2 (tsb - 1)))
      (if (0 <? t_cols_log2 t) || (0 <? t_rows_log2 t)
       then id <- p_f (t_rows_log2 t + t_cols_log2 t);; b <- p_f 2;;
         p_ret {| ti_col_starts := cs ++ [2 * ((w + 7) / 8)]; ti_row_starts := rs ++ [2 * ((h + 7) / 8)];
                  ti_cols_log2 := t_cols_log2 t; ti_rows_log2 := t_rows_log2 t;
                  ti_context_update_tile_id := id; ti_tile_size_bytes := Some (b + 1) |}
       else p_ret {| ti_col_starts := cs ++ [2 * ((w + 7) / 8)]; ti_row_starts := rs ++ [2 * ((h + 7) / 8)];
                  ti_cols_log2 := t_cols_log2 t; ti_rows_log2 := t_rows_log2 t;
                  ti_context_update_tile_id := 0; ti_tile_size_bytes := None |}) expected_info).
  { intros cs rs -> ->. unfold expected_info.
    destruct (Z.ltb_spec 0 (t_cols_log2 t + t_rows_log2 t)) as [P|P].
    - assert (E : (0 <? t_cols_log2 t) || (0 <? t_rows_log2 t) = true).
      { destruct (Z.ltb_spec 0 (t_cols_log2 t)); [reflexivity|]. destruct (Z.ltb_spec 0 (t_rows_log2 t)); [reflexivity|lia]. }
      rewrite E. cbn [w_if]. rewrite (Z.add_comm (t_cols_log2 t)).
      eapply rt_bind; [apply rt_bits; [lia|]; split; [lia|apply id_bound]|]. cbv beta.
      eapply rt_last; [apply rt_bits; [lia|change (2 ^ 2) with 4; lia]|]. cbv beta. repeat f_equal. lia.
    - assert (E : (0 <? t_cols_log2 t) || (0 <? t_rows_log2 t) = false).
      { destruct (Z.ltb_spec 0 (t_cols_log2 t)); [lia|]. destruct (Z.ltb_spec 0 (t_rows_log2 t)); [lia|reflexivity]. }
      rewrite E. cbn [w_if]. rewrite (zero_log2 P). apply rt_ret. }
  unfold w_tile_info. fold uniform_syntax. destruct uniform_syntax eqn:Eu.
  - rewrite w_seq_assoc. eapply rt_bind; [apply rt_bit|]. cbv beta iota.
    eapply rt_bind with (x := (starts (Z.to_nat (t_cols t)) (t_tw t) 0, starts (Z.to_nat (t_rows t)) (t_th t) 0, t_cols_log2 t, t_rows_log2 t)).
    2:{ cbv beta iota. apply Tail; reflexivity. }
    unfold uniform_syntax in Eu. apply andb_prop in Eu. destruct Eu as [Eu1 Eu2].
    apply Z.eqb_eq in Eu1, Eu2. rewrite align_shift_eq in Eu1, Eu2.
    eapply rt_bind; [apply rt_increments; [exact tf_cols_range|]|].
    { change (Z.of_nat 64) with 64. lia. }
    cbv beta zeta. eapply rt_last.
    { rewrite <- tf_min_rows. apply rt_increments; [exact tf_rows_range|].
      rewrite tf_min_rows. change (Z.of_nat 64) with 64. clear - Mr. lia. }
    cbv beta zeta.
    change ((sbc + 2 ^ t_cols_log2 t - 1) / 2 ^ t_cols_log2 t) with (div_ceil sbc (2 ^ t_cols_log2 t)).
    change ((sbr + 2 ^ t_rows_log2 t - 1) / 2 ^ t_rows_log2 t) with (div_ceil sbr (2 ^ t_rows_log2 t)).
    rewrite Eu1, Eu2. f_equal. f_equal. f_equal.
    f_equal.
    + change 0 with (0 * t_tw t) at 1. apply uniform_starts_ok; [lia|exact Hfc|lia|].
      rewrite Z2Nat.id by lia. rewrite Z.mul_0_l, Z.sub_0_r. exact tf_cols.
    + change 0 with (0 * t_th t) at 1. apply uniform_starts_ok; [lia|exact Hfr|lia|].
      rewrite Z2Nat.id by lia. rewrite Z.mul_0_l, Z.sub_0_r. exact tf_rows.
  - destruct Hu as [Hu|Hu]; [discriminate|]. rewrite w_seq_assoc. eapply rt_bind; [apply rt_bit|]. cbv beta iota.
    eapply rt_bind with (x := (starts (Z.to_nat (t_cols t)) (t_tw t) 0, starts (Z.to_nat (t_rows t)) (t_th t) 0, t_cols_log2 t, t_rows_log2 t)).
    2:{ cbv beta iota. apply Tail; reflexivity. }
    change (MAX_TILE_WIDTH / 2 ^ sb_log2) with 64.
    eapply rt_bind.
    { apply (explicit_ok 64 (t_tw t) sbc) with (i := 0); [lia|lia|exact Hfc|lia|lia|].
      rewrite Z2Nat.id by lia. rewrite Z.sub_0_r. exact tf_cols. }
    cbv beta zeta. cbn [fst snd].
    set (widest := widest_tile (Z.to_nat (t_cols t)) (t_tw t) sbc 0 0).
    assert (W1 : 1 <= widest).
    { unfold widest. destruct (Z.to_nat (t_cols t)) as [|n] eqn:En; [lia|]. cbn [widest_tile].
      eapply Z.le_trans; [|apply widest_ge; lia]. lia. }
    destruct (Z.eqb_spec widest 0); [lia|].
    eapply rt_last.
    { apply (explicit_ok explicit_max_height (t_th t) sbr) with (i := 0); [lia|lia|exact Hfr|lia|lia|].
      rewrite Z2Nat.id by lia. rewrite Z.sub_0_r. exact tf_rows. }
    cbv beta. cbn [fst snd]. unfold zlen. rewrite !starts_length, !Z2Nat.id by lia.
    rewrite (s_tl2_eq 1 (t_cols t) (t_cols_log2 t)) by (lia || assumption).
    rewrite (s_tl2_eq 1 (t_rows t) (t_rows_log2 t)) by (lia || assumption). reflexivity.
Qed.

(** Without 4:2:2 the uniform syntax always applies; with 4:2:2 the explicit
    syntax is adequate whenever no minimum number of tiles is imposed. *)
Lemma uniform_or_small : is_422 = false \/ t_min_tiles_log2 t = 0 -> uniform_syntax = true \/ t_th t <= explicit_max_height.
Proof.
  intros [E|E].
  - left. unfold uniform_syntax. destruct F. rewrite !align_shift_eq. rewrite <- (tf_tw_eq E), <- tf_th_eq, !Z.eqb_refl. reflexivity.
  - right. unfold explicit_max_height. rewrite E. cbn [Z.ltb Z.compare]. destruct F.
    set (widest := widest_tile _ _ _ _ _).
    assert (W : 1 <= widest <= sbc).
    { split.
      - unfold widest. destruct (Z.to_nat (t_cols t)) as [|n] eqn:En.
        + pose proof (cols_pos w h is_422 t sbc sbr F). lia.
        + cbn [widest_tile]. eapply Z.le_trans; [|apply widest_ge; lia]. lia.
      - unfold widest. assert (G : forall n sofar acc, 0 <= sofar -> acc <= sbc -> widest_tile n (t_tw t) sbc sofar acc <= sbc).
        { induction n as [|n IH]; intros sofar acc H1 H2; cbn [widest_tile]; [assumption|].
          apply IH; lia. }
        apply G; lia. }
    assert (sbr <= sbr * sbc / widest); [|lia].
    apply Z.div_le_lower_bound; [lia|]. rewrite (Z.mul_comm widest). apply Z.mul_le_mono_nonneg_l; lia.
Qed.
End Header.
