(** Arithmetic of the tiling computation. *)
From Verif Require Import Base Bits Tile_model Tile_spec.

(** ** Rounded division *)
Lemma div_ceil_spec a b c : 0 < b -> (div_ceil a b = c <-> b * (c - 1) < a <= b * c).
Proof.
  intros Hb. unfold div_ceil. split.
  - intros <-. pose proof (Z.div_mod (a + b - 1) b ltac:(lia)) as E.
    pose proof (Z.mod_pos_bound (a + b - 1) b Hb) as M. set (q := (a + b - 1) / b) in *.
    rewrite Z.mul_sub_distr_l. lia.
  - intros [H1 H2]. rewrite Z.mul_sub_distr_l in H1.
    symmetry. apply Z.div_unique with (a + b - 1 - b * c); lia.
Qed.
Lemma align_shift_eq n x : align_shift n x = div_ceil x (2 ^ n).
Proof. reflexivity. Qed.
Lemma div_ceil_bounds a b : 0 < b -> b * (div_ceil a b - 1) < a <= b * div_ceil a b.
Proof. intros Hb. now apply div_ceil_spec. Qed.
Lemma div_ceil_pos a b : 0 < b -> 0 < a -> 1 <= div_ceil a b.
Proof.
  intros Hb Ha. pose proof (div_ceil_bounds a b Hb).
  destruct (Z.le_gt_cases 1 (div_ceil a b)); [assumption|].
  assert (b * div_ceil a b <= 0) by (apply Z.mul_nonneg_nonpos; lia). lia.
Qed.
Lemma div_ceil_le a b c : 0 < b -> a <= b * c -> div_ceil a b <= c.
Proof.
  intros Hb H. pose proof (div_ceil_bounds a b Hb) as B.
  destruct (Z.le_gt_cases (div_ceil a b) c); [assumption|].
  assert (b * c <= b * (div_ceil a b - 1)) by (apply Z.mul_le_mono_nonneg_l; lia). lia.
Qed.
Lemma div_ceil_gt a b c : 0 < b -> b * c < a -> c < div_ceil a b.
Proof.
  intros Hb H. pose proof (div_ceil_bounds a b Hb) as B.
  destruct (Z.le_gt_cases (div_ceil a b) c); [|assumption].
  assert (b * div_ceil a b <= b * c) by (apply Z.mul_le_mono_nonneg_l; lia). lia.
Qed.
Lemma align_spec n x : 0 <= n -> align n x = 2 ^ n * div_ceil x (2 ^ n).
Proof. intros. unfold align, div_ceil. apply Z.mul_comm. Qed.

Lemma div_ceil_le_self n s : 1 <= s -> 0 <= n -> div_ceil n s <= n.
Proof.
  intros Hs Hn. apply div_ceil_le; [lia|].
  assert (1 * n <= s * n) by (apply Z.mul_le_mono_nonneg_r; lia). lia.
Qed.

(** ** tile_log2 *)
Lemma is_tile_log2_unique blk target k k' : is_tile_log2 blk target k -> is_tile_log2 blk target k' -> k = k'.
Proof.
  intros (H0 & H1 & H2) (G0 & G1 & G2).
  destruct (Z.lt_trichotomy k k') as [L|[E|L]]; [|assumption|].
  - specialize (G2 k ltac:(lia)). lia.
  - specialize (H2 k' ltac:(lia)). lia.
Qed.
Lemma pow2_pos k : 0 <= k -> 0 < 2 ^ k.
Proof. intros. apply Z.pow_pos_nonneg; lia. Qed.

Lemma tile_log2_loop_ok blk target : 1 <= blk <= 2 ^ 12 -> target <= 2 ^ 40 ->
  forall fuel k, 0 <= k <= 40 -> (41 - k <= Z.of_nat fuel) -> (forall j, 0 <= j < k -> blk * 2 ^ j < target) ->
  exists r, tile_log2_loop fuel blk target k = Some r /\ is_tile_log2 blk target r /\ r <= 40.
Proof.
  intros Hb Ht. induction fuel as [|fuel IH]; intros k Hk Hf Hj; [lia|].
  cbn [tile_log2_loop]. destruct (Z.leb_spec 64 k); [lia|].
  assert (P : 0 < 2 ^ k <= 2 ^ 40) by (split; [apply pow2_pos; lia|apply Z.pow_le_mono_r; lia]).
  rewrite Z.mod_small by nia.
  destruct (Z.ltb_spec (blk * 2 ^ k) target) as [L|L].
  - destruct (Z.eq_dec k 40) as [->|N]; [nia|].
    apply IH; [lia|lia|]. intros j J. destruct (Z.eq_dec j k) as [->|]; [assumption|apply Hj; lia].
  - exists k. split; [reflexivity|]. split; [|lia]. split; [lia|]. split; [lia|exact Hj].
Qed.
Lemma tile_log2_ok blk target : 1 <= blk <= 2 ^ 12 -> target <= 2 ^ 40 ->
  exists k, tile_log2 blk target = Some k /\ is_tile_log2 blk target k /\ k <= 40.
Proof. intros. apply tile_log2_loop_ok; try assumption; lia. Qed.

Lemma s_tile_log2_ok blk target : 1 <= blk -> target <= 2 ^ 40 ->
  forall fuel k, 0 <= k <= 40 -> 41 - k <= Z.of_nat fuel -> (forall j, 0 <= j < k -> blk * 2 ^ j < target) ->
  is_tile_log2 blk target (s_tile_log2 fuel blk target k).
Proof.
  intros Hb Ht. induction fuel as [|fuel IH]; intros k Hk Hf Hj; [lia|].
  cbn [s_tile_log2].
  destruct (Z.ltb_spec (blk * 2 ^ k) target) as [L|L].
  - destruct (Z.eq_dec k 40) as [->|N]; [nia|].
    apply IH; [lia|lia|]. intros j J. destruct (Z.eq_dec j k) as [->|]; [assumption|apply Hj; lia].
  - split; [lia|]. split; [lia|exact Hj].
Qed.
Lemma s_tl2_eq blk target k : 1 <= blk -> target <= 2 ^ 40 -> is_tile_log2 blk target k -> s_tl2 blk target = k.
Proof.
  intros Hb Ht Hk. eapply is_tile_log2_unique; [|exact Hk]. apply s_tile_log2_ok; try assumption; lia.
Qed.

Lemma is_tile_log2_le blk target k n : 0 <= n -> is_tile_log2 blk target k -> target <= blk * 2 ^ n -> k <= n.
Proof.
  intros Hn (H0 & H1 & H2) H. destruct (Z.le_gt_cases k n); [assumption|]. specialize (H2 n ltac:(lia)). lia.
Qed.
Lemma is_tile_log2_gt blk target k n : 0 < blk -> is_tile_log2 blk target k -> 0 <= n -> blk * 2 ^ n < target -> n < k.
Proof.
  intros Hb (H0 & H1 & H2) Hn H. destruct (Z.lt_ge_cases n k); [assumption|].
  assert (2 ^ k <= 2 ^ n) by (apply Z.pow_le_mono_r; lia). nia.
Qed.

(** Splitting [n] superblocks in tiles of ceil(n / 2^k) needs between
    2^(k-1) + 1 and 2^k tiles as long as k does not exceed log2(n). *)
Lemma split_log2 n m k : 1 <= n -> m <= n -> is_tile_log2 1 m k \/ (exists k', is_tile_log2 1 m k' /\ 0 <= k <= k') ->
  is_tile_log2 1 (div_ceil n (div_ceil n (2 ^ k))) k.
Proof.
  intros Hn Hm H. assert (G : exists k', is_tile_log2 1 m k' /\ 0 <= k <= k').
  { destruct H as [H|H]; [exists k; split; [exact H|destruct H; lia]|exact H]. }
  clear H. destruct G as (k' & Hk' & K). pose proof (pow2_pos k ltac:(lia)) as P.
  pose proof (div_ceil_pos n (2 ^ k) P ltac:(lia)) as T1. pose proof (div_ceil_bounds n (2 ^ k) P) as TB.
  set (T := div_ceil n (2 ^ k)) in *. split; [lia|]. split.
  - rewrite Z.mul_1_l. apply div_ceil_le; lia.
  - intros j J. rewrite Z.mul_1_l. apply div_ceil_gt; [lia|].
    assert (P' : 0 < 2 ^ j) by (apply pow2_pos; lia).
    assert (Q : 2 ^ j <= 2 ^ (k - 1)) by (apply Z.pow_le_mono_r; lia).
    assert (E : 2 ^ k = 2 * 2 ^ (k - 1)) by (rewrite <- Z.pow_succ_r by lia; f_equal; lia).
    assert (F : 2 ^ (k - 1) < n).
    { destruct Hk' as (_ & _ & H2). specialize (H2 (k - 1) ltac:(lia)). lia. }
    set (p := 2 ^ (k - 1)) in *.
    assert (T * p < n); [|nia].
    destruct (Z.eq_dec T 1) as [->|N1]; [lia|].
    (* n > 2p(T-1), T >= 2 *)
    nia.
Qed.

(** ** What [from_target_tiles] computes *)
Record tiling_facts (w h : Z) (is_422 : bool) (t : tiling) (sbc sbr : Z) : Prop := {
  tf_fw : t_fw t = 8 * div_ceil w 8;
  tf_fh : t_fh t = 8 * div_ceil h 8;
  tf_sbc : sbc = div_ceil (t_fw t) 64;
  tf_sbr : sbr = div_ceil (t_fh t) 64;
  tf_sbc_b : 1 <= sbc <= 1024;
  tf_sbr_b : 1 <= sbr <= 1024;
  tf_tw : 1 <= t_tw t <= 64;
  tf_th : 1 <= t_th t <= sbr;
  tf_cols : t_cols t = div_ceil sbc (t_tw t);
  tf_rows : t_rows t = div_ceil sbr (t_th t);
  tf_min_cols : is_tile_log2 64 sbc (t_min_cols_log2 t);
  tf_max_cols : is_tile_log2 1 (Z.min sbc 64) (t_max_cols_log2 t);
  tf_max_rows : is_tile_log2 1 (Z.min sbr 64) (t_max_rows_log2 t);
  tf_min_tiles : exists a, is_tile_log2 2304 (sbr * sbc) a /\ t_min_tiles_log2 t = Z.max (t_min_cols_log2 t) a;
  tf_min_rows : t_min_rows_log2 t = Z.max (t_min_tiles_log2 t - t_cols_log2 t) 0;
  tf_cols_log2 : is_tile_log2 1 (t_cols t) (t_cols_log2 t);
  tf_rows_log2 : is_tile_log2 1 (t_rows t) (t_rows_log2 t);
  tf_cols_range : t_min_cols_log2 t <= t_cols_log2 t <= t_max_cols_log2 t;
  tf_rows_range : t_min_rows_log2 t <= t_rows_log2 t <= t_max_rows_log2 t;
  tf_th_eq : t_th t = div_ceil sbr (2 ^ t_rows_log2 t);
  tf_tw_eq : is_422 = false -> t_tw t = div_ceil sbc (2 ^ t_cols_log2 t);
  tf_tw_even : is_422 = true -> t_tw t mod 2 = 0
}.

Lemma clamp_spec lo hi x r : clamp lo hi x = Some r -> lo <= r <= hi /\ (lo <= x <= hi -> r = x) /\ (x < lo -> r = lo) /\ (hi < x -> r = hi).
Proof.
  unfold clamp. destruct (Z.ltb_spec hi lo); [discriminate|].
  destruct (Z.ltb_spec x lo); [intros E; injection E as <-; lia|].
  destruct (Z.ltb_spec hi x); intros E; injection E as <-; lia.
Qed.
Lemma clamp_some lo hi x : lo <= hi -> exists r, clamp lo hi x = Some r.
Proof. intros. unfold clamp. destruct (Z.ltb_spec hi lo); [lia|eauto]. Qed.

Lemma sizes_bound w : 1 <= w <= 65535 ->
  1 <= div_ceil w 8 <= 8192 /\ 1 <= div_ceil (8 * div_ceil w 8) 64 <= 1024.
Proof.
  intros Hw. assert (A : 1 <= div_ceil w 8 <= 8192) by (split; [apply div_ceil_pos; lia|apply div_ceil_le; lia]).
  split; [exact A|]. split; [apply div_ceil_pos; lia|apply div_ceil_le; lia].
Qed.

Section FromTarget.
Variables (w h rl tc tr : Z) (is_422 : bool).
Hypotheses (Hw : 1 <= w <= 65535) (Hh : 1 <= h <= 65535).

Let sbc := div_ceil (8 * div_ceil w 8) 64.
Let sbr := div_ceil (8 * div_ceil h 8) 64.

Lemma from_target_tiles_ok :
  match from_target_tiles w h rl tc tr is_422 with
  | Some t => tiling_facts w h is_422 t sbc sbr /\
              (forall k, is_tile_log2 64 sbc k -> k <= t_cols_log2 t) /\
              Z.max 0 (rl - t_cols_log2 t) <= t_rows_log2 t /\
              Z.min tr (t_max_rows_log2 t) <= t_rows_log2 t
  | None => exists c mr, (forall k, is_tile_log2 64 sbc k -> k <= c) /\ is_tile_log2 1 (Z.min sbr 64) mr /\
                         mr + c < rl
  end.
Proof.
  destruct (sizes_bound w Hw) as [W1 W2], (sizes_bound h Hh) as [H1 H2]. fold sbc in W2. fold sbr in H2.
  unfold from_target_tiles. cbv zeta. rewrite !align_spec by lia. change (2 ^ 3) with 8.
  unfold sb_log2, MAX_TILE_WIDTH, MAX_TILE_AREA, MAX_TILE_COLS, MAX_TILE_ROWS.
  change (4096 / 2 ^ 6) with 64. change (4096 * 2304 / 2 ^ (2 * 6)) with 2304.
  rewrite !align_shift_eq. change (2 ^ 6) with 64. fold sbc sbr.
  destruct (tile_log2_ok 64 sbc ltac:(lia) ltac:(lia)) as (minc & -> & Hminc & _).
  destruct (tile_log2_ok 1 (Z.min sbc 64) ltac:(lia) ltac:(lia)) as (maxc & -> & Hmaxc & _).
  destruct (tile_log2_ok 1 (Z.min sbr 64) ltac:(lia) ltac:(lia)) as (maxr & -> & Hmaxr & _).
  destruct (tile_log2_ok 2304 (sbc * sbr) ltac:(lia) ltac:(nia)) as (area & -> & Harea & _).
  cbn [bindo].
  assert (Minc4 : minc <= 4) by (apply (is_tile_log2_le 64 sbc); [lia|assumption|change (64 * 2 ^ 4) with 1024; lia]).
  assert (Maxc6 : maxc <= 6) by (apply (is_tile_log2_le 1 (Z.min sbc 64)); [lia|assumption|change (1 * 2 ^ 6) with 64; lia]).
  assert (Maxr6 : maxr <= 6) by (apply (is_tile_log2_le 1 (Z.min sbr 64)); [lia|assumption|change (1 * 2 ^ 6) with 64; lia]).
  assert (MM : minc <= maxc).
  { destruct (Z.le_gt_cases sbc 64).
    - assert (minc <= 0); [|destruct Hmaxc; lia]. apply (is_tile_log2_le 64 sbc); [lia|assumption|lia].
    - assert (5 < maxc); [|lia]. apply (is_tile_log2_gt 1 (Z.min sbc 64)); [lia|assumption|lia|change (2 ^ 5) with 32; lia]. }
  destruct (clamp_some minc maxc tc MM) as (cl & Ecl). rewrite Ecl. cbn [bindo]. rewrite !align_shift_eq.
  apply clamp_spec in Ecl. destruct Ecl as (Rcl & _).
  assert (Mincp : 0 <= minc) by (destruct Hminc; assumption).
  assert (Pcl : 0 < 2 ^ cl) by (apply pow2_pos; lia).
  set (pre := div_ceil sbc (2 ^ cl)).
  assert (Bpre : 1 <= pre <= 64).
  { split; [apply div_ceil_pos; lia|]. apply div_ceil_le; [lia|]. destruct Hminc as (_ & Hm & _).
    assert (2 ^ minc <= 2 ^ cl) by (apply Z.pow_le_mono_r; lia). lia. }
  assert (Hpre : is_tile_log2 1 (div_ceil sbc pre) cl).
  { apply split_log2 with (m := Z.min sbc 64); [lia|lia|]. right. exists maxc. split; [assumption|lia]. }
  set (tw := if is_422 then (pre + 1) / 2 * 2 else pre).
  assert (Btw : pre <= tw <= 64).
  { unfold tw. destruct is_422; [|lia].
    pose proof (Z.div_mod (pre + 1) 2 ltac:(lia)). pose proof (Z.mod_pos_bound (pre + 1) 2 ltac:(lia)). lia. }
  assert (Bcols : div_ceil sbc 64 <= div_ceil sbc tw <= div_ceil sbc pre).
  { pose proof (div_ceil_bounds sbc tw ltac:(lia)) as B. pose proof (div_ceil_pos sbc tw ltac:(lia) ltac:(lia)) as B1.
    pose proof (div_ceil_bounds sbc pre ltac:(lia)) as B2.
    pose proof (div_ceil_pos sbc pre ltac:(lia) ltac:(lia)) as B3.
    split; apply div_ceil_le; try lia.
    - assert (tw * div_ceil sbc tw <= 64 * div_ceil sbc tw) by (apply Z.mul_le_mono_nonneg_r; lia). lia.
    - assert (pre * div_ceil sbc pre <= tw * div_ceil sbc pre) by (apply Z.mul_le_mono_nonneg_r; lia). lia. }
  set (cols := div_ceil sbc tw) in *.
  assert (C1 : 1 <= cols <= 64).
  { split; [apply div_ceil_pos; lia|]. destruct Hpre as (_ & Hp & _).
    assert (2 ^ cl <= 2 ^ 6) by (apply Z.pow_le_mono_r; lia). change (2 ^ 6) with 64 in *. lia. }
  destruct (tile_log2_ok 1 cols ltac:(lia) ltac:(lia)) as (cl2 & -> & Hcl2 & _).
  cbn [bindo].
  assert (Cl2 : cl2 <= cl).
  { apply (is_tile_log2_le 1 cols); [lia|assumption|]. destruct Hpre as (_ & Hp & _). lia. }
  assert (Cl2' : minc <= cl2).
  { apply (is_tile_log2_le 64 sbc); [destruct Hcl2; lia|assumption|]. destruct Hcl2 as (_ & Hc & _).
    pose proof (div_ceil_bounds sbc 64 ltac:(lia)). lia. }
  destruct (Z.ltb_spec cl2 minc) as [|_]; [lia|].
  assert (AllMin : forall k, is_tile_log2 64 sbc k -> k <= cl2).
  { intros k Hk. rewrite (is_tile_log2_unique _ _ _ _ Hk Hminc). assumption. }
  (* rows *)
  assert (Harea' : area <= cl2 + maxr).
  { apply (is_tile_log2_le 2304 (sbc * sbr)); [destruct Hcl2, Hmaxr; lia|assumption|].
    rewrite Z.pow_add_r by (destruct Hcl2, Hmaxr; lia).
    destruct Hminc as (_ & Hm & _). assert (2 ^ minc <= 2 ^ cl2) by (apply Z.pow_le_mono_r; lia).
    assert (sbc <= 64 * 2 ^ cl2) by lia.
    assert (sbr <= 36 * 2 ^ maxr).
    { destruct (Z.le_gt_cases sbr 64) as [L|L].
      - destruct Hmaxr as (_ & Hr & _). rewrite Z.min_l in Hr by lia. lia.
      - assert (maxr = 6) as ->; [|change (2 ^ 6) with 64; lia].
        assert (5 < maxr); [|lia].
        apply (is_tile_log2_gt 1 (Z.min sbr 64)); [lia|assumption|lia|change (2 ^ 5) with 32; lia]. }
    assert (0 < 2 ^ cl2) by (apply pow2_pos; destruct Hcl2; lia).
    assert (sbc * sbr <= 64 * 2 ^ cl2 * (36 * 2 ^ maxr)) by (apply Z.mul_le_mono_nonneg; lia). lia. }
  set (min_tiles := Z.max minc area).
  destruct (clamp (Z.max 0 (Z.max min_tiles rl - cl2)) maxr (Z.max tr (Z.max 0 (min_tiles - cl2)))) as [r|] eqn:Er; cbn [bindo]; rewrite ?align_shift_eq.
  2:{ exists cl2, maxr. split; [exact AllMin|]. split; [assumption|].
      unfold clamp in Er. destruct (Z.ltb_spec maxr (Z.max 0 (Z.max min_tiles rl - cl2))) as [L|L]; [|discriminate].
      unfold min_tiles in *. destruct Hmaxr as (Hr0 & _). clear - L Harea' Cl2' Hr0. lia. }
  apply clamp_spec in Er. destruct Er as (Rr & Rr1 & Rr2 & Rr3).
  assert (Hr0 : 0 <= r) by (clear - Rr; lia).
  assert (Pr : 0 < 2 ^ r) by (apply pow2_pos; lia).
  assert (Bth : 1 <= div_ceil sbr (2 ^ r) <= sbr) by (split; [apply div_ceil_pos; lia|apply div_ceil_le; nia]).
  cbn [t_cols_log2 t_rows_log2 t_max_rows_log2].
  split; [|split; [exact AllMin|split; [clear - Rr; lia|clear - Rr Rr1 Rr2 Rr3; lia]]].
  constructor; cbn [t_fw t_fh t_tw t_th t_cols t_rows t_cols_log2 t_rows_log2 t_min_cols_log2 t_max_cols_log2 t_min_rows_log2 t_max_rows_log2 t_min_tiles_log2];
    try reflexivity; try assumption.
  - clear - Btw Bpre. lia.
  - exists area. split; [rewrite Z.mul_comm; assumption|reflexivity].
  - apply Z.max_comm.
  - apply split_log2 with (m := Z.min sbr 64); [lia|lia|]. right. exists maxr. split; [assumption|lia].
  - lia.
  - clear - Rr. lia.
  - intros E. assert (Et : tw = pre) by (unfold tw; rewrite E; reflexivity).
    assert (Ec : cols = div_ceil sbc pre) by (unfold cols; rewrite Et; reflexivity).
    rewrite Ec in Hcl2. rewrite (is_tile_log2_unique _ _ _ _ Hcl2 Hpre). exact Et.
  - intros E. unfold tw. rewrite E. apply Z.mod_mul. lia.
Qed.
End FromTarget.

(** ** Tile views *)

(** One dimension: pieces of size [s] cut from [0, n). *)
Lemma piece_start s n i : 0 < s -> 0 <= i < div_ceil n s -> 0 <= i * s < n.
Proof.
  intros Hs Hi. pose proof (div_ceil_bounds n s Hs) as B. split; [apply Z.mul_nonneg_nonneg; lia|].
  assert (i * s <= s * (div_ceil n s - 1)) by (rewrite Z.mul_comm; apply Z.mul_le_mono_nonneg_l; lia). lia.
Qed.
Lemma piece_of s n p i : 0 < s -> 0 <= p < n ->
  (i * s <= p < i * s + Z.min s (n - i * s) <-> i = p / s).
Proof.
  intros Hs Hp. pose proof (Z.div_mod p s ltac:(lia)) as E. pose proof (Z.mod_pos_bound p s Hs) as M. split.
  - intros H. apply Z.div_unique with (p - i * s); [lia|]. rewrite (Z.mul_comm s i). lia.
  - intros ->. rewrite (Z.mul_comm (p / s) s). lia.
Qed.
Lemma piece_index s n p : 0 < s -> 0 <= p < n -> 0 <= p / s < div_ceil n s.
Proof.
  intros Hs Hp. split; [apply Z.div_pos; lia|]. apply div_ceil_gt; [lia|].
  pose proof (Z.div_mod p s ltac:(lia)). pose proof (Z.mod_pos_bound p s Hs). lia.
Qed.
Lemma div_ceil_div_ceil n a b : 0 < a -> 0 < b -> div_ceil (div_ceil n a) b = div_ceil n (a * b).
Proof.
  intros Ha Hb. symmetry. apply div_ceil_spec; [nia|].
  pose proof (div_ceil_bounds n a Ha) as A. set (q := div_ceil n a) in *.
  pose proof (div_ceil_bounds q b Hb) as B. set (r := div_ceil q b) in *.
  assert (a * (b * (r - 1)) <= a * (q - 1)) by (apply Z.mul_le_mono_nonneg_l; lia).
  assert (a * q <= a * (b * r)) by (apply Z.mul_le_mono_nonneg_l; lia). lia.
Qed.
(** tiles in row-major order *)
Lemma grid_index c r i j : 0 < c -> 0 <= i < c -> 0 <= j < r ->
  0 <= j * c + i < r * c /\ (j * c + i) mod c = i /\ (j * c + i) / c = j.
Proof.
  intros Hc Hi Hj. split; [nia|]. rewrite Z.add_comm, Z.mod_add by lia. rewrite Z.mod_small by lia.
  rewrite Z.div_add by lia. rewrite Z.div_small by lia. lia.
Qed.
Lemma grid_coords c r i : 0 < c -> 0 <= i < r * c -> 0 <= i mod c < c /\ 0 <= i / c < r /\ i = i / c * c + i mod c.
Proof.
  intros Hc Hi. split; [apply Z.mod_pos_bound; lia|]. split.
  - split; [apply Z.div_pos; lia|apply Z.div_lt_upper_bound; lia].
  - pose proof (Z.div_mod i c ltac:(lia)). lia.
Qed.

Definition in_rect (r : rect) (x y : Z) : Prop :=
  r_x r <= x < r_x r + r_w r /\ r_y r <= y < r_y r + r_h r.

Section Views.
Variables (w h : Z) (is_422 : bool) (t : tiling) (sbc sbr : Z).
Hypothesis F : tiling_facts w h is_422 t sbc sbr.

Lemma cols_pix : t_cols t = div_ceil (t_fw t) (64 * t_tw t).
Proof. destruct F. rewrite tf_cols0, tf_sbc0. apply div_ceil_div_ceil; lia. Qed.
Lemma rows_pix : t_rows t = div_ceil (t_fh t) (64 * t_th t).
Proof. destruct F. rewrite tf_rows0, tf_sbr0. apply div_ceil_div_ceil; lia. Qed.
Lemma cols_pos : 1 <= t_cols t.
Proof. destruct F. rewrite tf_cols0. apply div_ceil_pos; lia. Qed.
Lemma rows_pos : 1 <= t_rows t.
Proof. destruct F. rewrite tf_rows0. apply div_ceil_pos; lia. Qed.
Lemma fb_cols_eq : 2 * align_shift 3 (t_fw t) = t_fw t / 4.
Proof.
  destruct F. rewrite align_shift_eq. change (2 ^ 3) with 8. rewrite tf_fw0.
  replace (div_ceil (8 * div_ceil w 8) 8) with (div_ceil w 8) by (symmetry; apply div_ceil_spec; lia).
  replace (8 * div_ceil w 8) with (2 * div_ceil w 8 * 4) by lia. rewrite Z.div_mul by lia. reflexivity.
Qed.
Lemma fb_rows_eq : 2 * align_shift 3 (t_fh t) = t_fh t / 4.
Proof.
  destruct F. rewrite align_shift_eq. change (2 ^ 3) with 8. rewrite tf_fh0.
  replace (div_ceil (8 * div_ceil h 8) 8) with (div_ceil h 8) by (symmetry; apply div_ceil_spec; lia).
  replace (8 * div_ceil h 8) with (2 * div_ceil h 8 * 4) by lia. rewrite Z.div_mul by lia. reflexivity.
Qed.

(** Closed form of the view of tile (column [c], row [r]). *)
Definition view_of (c r : Z) : tile_view :=
  let x := c * (64 * t_tw t) in
  let y := r * (64 * t_th t) in
  let wd := Z.min (64 * t_tw t) (t_fw t - x) in
  let hd := Z.min (64 * t_th t) (t_fh t - y) in
  {| v_sbx := c * t_tw t; v_sby := r * t_th t;
     v_rect := {| r_x := x; r_y := y; r_w := wd; r_h := hd |};
     v_rec := {| r_x := x; r_y := y; r_w := 64 * div_ceil wd 64; r_h := 64 * div_ceil hd 64 |};
     v_blocks := {| r_x := c * (16 * t_tw t); r_y := r * (16 * t_th t);
                    r_w := Z.min (16 * t_tw t) (t_fw t / 4 - c * (16 * t_tw t));
                    r_h := Z.min (16 * t_th t) (t_fh t / 4 - r * (16 * t_th t)) |} |}.

Lemma starts_ok c r : 0 <= c < t_cols t -> 0 <= r < t_rows t ->
  0 <= c * (64 * t_tw t) < t_fw t /\ 0 <= r * (64 * t_th t) < t_fh t.
Proof.
  intros Hc Hr. rewrite cols_pix in Hc. rewrite rows_pix in Hr. destruct F.
  split; apply piece_start; lia.
Qed.
Lemma fw8 : t_fw t = 4 * (t_fw t / 4) /\ t_fh t = 4 * (t_fh t / 4).
Proof.
  destruct F. rewrite tf_fw0, tf_fh0. replace (8 * div_ceil w 8) with (2 * div_ceil w 8 * 4) by lia.
  replace (8 * div_ceil h 8) with (2 * div_ceil h 8 * 4) by lia. rewrite !Z.div_mul by lia. lia.
Qed.

Lemma tile_view_at_eq i : 0 <= i < t_rows t * t_cols t ->
  tile_view_at t i = Some (view_of (i mod t_cols t) (i / t_cols t)).
Proof.
  intros Hi. pose proof cols_pos as Cp.
  destruct (grid_coords (t_cols t) (t_rows t) i ltac:(lia) Hi) as (Hc & Hr & _).
  destruct (starts_ok _ _ Hc Hr) as [Sx Sy]. destruct fw8 as [W8 H8].
  unfold tile_view_at. destruct (Z.ltb_spec i (t_rows t * t_cols t)); [|lia].
  rewrite fb_cols_eq, fb_rows_eq. cbv zeta. change (2 ^ (sb_log2 - 2)) with 16. unfold sb_log2. change (2 ^ 6) with 64.
  set (c := i mod t_cols t) in *. set (r := i / t_cols t) in *.
  assert (Ex : c * t_tw t * 64 = c * (64 * t_tw t)) by ring.
  assert (Ey : r * t_th t * 64 = r * (64 * t_th t)) by ring.
  assert (Fx : c * (t_tw t * 16) = c * (16 * t_tw t)) by ring.
  assert (Fy : r * (t_th t * 16) = r * (16 * t_th t)) by ring.
  assert (Gx : c * (64 * t_tw t) = 4 * (c * (16 * t_tw t))) by ring.
  assert (Gy : r * (64 * t_th t) = 4 * (r * (16 * t_th t))) by ring.
  rewrite Ex, Ey, Fx, Fy.
  destruct (Z.ltb_spec (t_fw t) (c * (64 * t_tw t))); [lia|].
  destruct (Z.ltb_spec (t_fh t) (r * (64 * t_th t))); [lia|]. cbn [orb].
  destruct (Z.ltb_spec (t_fw t / 4) (c * (16 * t_tw t))); [lia|].
  destruct (Z.ltb_spec (t_fh t / 4) (r * (16 * t_th t))); [lia|]. cbn [orb].
  unfold view_of. rewrite !align_spec by lia. change (2 ^ 6) with 64.
  rewrite (Z.mul_comm (t_tw t) 64), (Z.mul_comm (t_th t) 64), (Z.mul_comm (t_tw t) 16), (Z.mul_comm (t_th t) 16).
  reflexivity.
Qed.

(** Any family of rectangles cut on a grid of [sx] by [sy] covers every point once. *)
Lemma grid_cover (f : Z -> option rect) sx sy W H :
  0 < sx -> 0 < sy -> t_cols t = div_ceil W sx -> t_rows t = div_ceil H sy ->
  (forall i, 0 <= i < t_rows t * t_cols t -> f i = Some
     {| r_x := i mod t_cols t * sx; r_y := i / t_cols t * sy;
        r_w := Z.min sx (W - i mod t_cols t * sx); r_h := Z.min sy (H - i / t_cols t * sy) |}) ->
  forall x y, 0 <= x < W -> 0 <= y < H ->
  exists i, (0 <= i < t_rows t * t_cols t /\ exists r, f i = Some r /\ in_rect r x y) /\
            forall j, (0 <= j < t_rows t * t_cols t /\ exists r, f j = Some r /\ in_rect r x y) -> j = i.
Proof.
  intros Hsx Hsy Ec Er Hf x y Hx Hy. pose proof cols_pos as Cp.
  pose proof (piece_index sx W x Hsx Hx) as Ix. pose proof (piece_index sy H y Hsy Hy) as Iy.
  rewrite <- Ec in Ix. rewrite <- Er in Iy.
  destruct (grid_index (t_cols t) (t_rows t) (x / sx) (y / sy) ltac:(lia) Ix Iy) as (Gi & Gm & Gd).
  exists (y / sy * t_cols t + x / sx). split.
  - split; [exact Gi|]. rewrite (Hf _ Gi), Gm, Gd. eexists. split; [reflexivity|].
    unfold in_rect. cbn [r_x r_y r_w r_h]. split; apply piece_of; (assumption || reflexivity).
  - intros j (Hj & r & Ej & Hin). rewrite (Hf _ Hj) in Ej. injection Ej as <-.
    unfold in_rect in Hin. cbn [r_x r_y r_w r_h] in Hin. destruct Hin as [Ix' Iy'].
    apply piece_of in Ix', Iy'; try assumption.
    destruct (grid_coords (t_cols t) (t_rows t) j ltac:(lia) Hj) as (_ & _ & Ej). rewrite Ej, Ix', Iy'. reflexivity.
Qed.
End Views.
