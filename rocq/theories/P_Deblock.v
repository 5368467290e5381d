(** C52: deblocking is the decoder's; C53: the search for filter levels; C41, deblocking. *)
From Verif Require Import Base Deblock_model Deblock_order Deblock_proof Deblock_plane Deblock_tally Deblock_flat.
From Verif Require Deblock_spec.
Local Open Scope Z_scope.

(** C52.  For a frame cut into AV1 blocks in any way, with any transforms, skip flags,
    references, filter levels and pixels, [deblock_plane] leaves exactly the plane that the
    loop filter of the AV1 specification computes, although it visits the edges in a
    different order; and the result is a plane of pixels of the same bit depth.
    [bcols], [brows]: size of the block array; MiCols, MiRows: size of the frame in
    units of four pixels, as a decoder computes it. *)
Theorem C52_deblock_is_decoder d blocks pli bd tbits xdec ydec width height bcols brows p :
  tiling blocks ->
  0 <= pli <= 2 -> (pli = 0 -> xdec = 0 /\ ydec = 0) ->
  xdec = 0 \/ xdec = 1 -> ydec = 0 \/ ydec = 1 ->
  8 <= bd <= tbits ->
  (forall i, 0 <= i < 4 -> 0 <= d_levels d i <= 63) ->
  d_deltas_enabled d = false -> d_block_deltas_enabled d = false ->
  0 < width -> 0 < height -> (width + 3) / 4 <= bcols -> (height + 3) / 4 <= brows ->
  (forall r c, 0 <= p r c < 2 ^ bd) ->
  let MiCols := 2 * ((width + 7) / 8) in
  let MiRows := 2 * ((height + 7) / 8) in
  let out := deblock_plane d blocks pli bd tbits xdec ydec bcols brows width height p in
  (forall r c, out r c =
     Deblock_spec.loop_filter (params_of d) (fun r c => unit_of (blocks r c)) pli bd xdec ydec width height MiRows MiCols p r c) /\
  (forall r c, 0 <= out r c < 2 ^ bd).
Proof.
  intros T P1 P2 DX DY B LV O1 O2 W H BC BR R. cbv zeta.
  exact (deblock_is_spec d blocks pli bd tbits xdec ydec width height T P1 P2 DX DY B LV O1 O2 bcols brows
    (2 * ((width + 7) / 8)) (2 * ((height + 7) / 8)) W H BC BR ltac:(clear; dlia) ltac:(clear; dlia) p R).
Qed.
Print Assumptions C52_deblock_is_decoder.

(** The filter kernels: one line across an edge. [fs] is the specification's filterSize,
    [kernel_of] the number of pixels the code passes. *)
Theorem C52_kernels bd level pl fs s tbits i :
  8 <= bd <= tbits -> 1 <= level -> fs = 4 \/ fs = 8 \/ (fs = 16 /\ pl = 0) ->
  let half := kernel_of pl fs / 2 in
  (forall i, - half <= i < half -> 0 <= s i < 2 ^ bd) ->
  - half <= i < half ->
  deblock_line tbits (kernel_of pl fs) (fun k => s (k - half)) level bd (i + half) =
    Deblock_spec.line pl fs bd level s i /\
  0 <= Deblock_spec.line pl fs bd level s i < 2 ^ bd.
Proof. intros B L F half R I. exact (line_ok bd level ltac:(lia) L pl fs s F R tbits i ltac:(lia) I). Qed.
Print Assumptions C52_kernels.

(** Not vacuous: 32x32 intra blocks with 16x16 transforms next to columns of skipped 4x16
    inter blocks; 4:2:0 chroma and luma of such a frame. *)
Definition c52_blocks (y x : Z) : block :=
  if Z.even (x / 8) then {| b_w := 3; b_h := 3; b_tw := 2; b_th := 2; b_skip := false; b_ref := 0; b_moving := false; b_deltas := fun _ => 0 |}
  else {| b_w := 0; b_h := 2; b_tw := 0; b_th := 2; b_skip := true; b_ref := 1 + x mod 3; b_moving := Z.even y && false; b_deltas := fun _ => 0 |}.
Example c52_tiling : tiling c52_blocks.
Proof.
  assert (D : forall x x', x' / 2 ^ 3 = x / 2 ^ 3 -> x' / 8 = x / 8) by (intros; assumption).
  constructor; intros y x.
  - unfold c52_blocks. destruct (Z.even _); cbn; lia.
  - unfold c52_blocks. destruct (Z.even _); cbn; lia.
  - intros y' x'. cbv zeta. unfold c52_blocks at 1 2 3 4 6. destruct (Z.even (x / 8)) eqn:E; cbn [b_w b_h]; intros H1 H2.
    + unfold c52_blocks. change (2 ^ 3) with 8 in H2. rewrite H2, E. reflexivity.
    + assert (x' = x) by (change (2 ^ 0) with 1 in H2; rewrite !Z.div_1_r in H2; exact H2). subst x'.
      unfold c52_blocks. rewrite E. rewrite !andb_false_r. reflexivity.
  - intros y' x' H1 H2. unfold c52_blocks. assert (E : x' / 8 = x / 8).
    { replace 8 with (2 * 4) by reflexivity. rewrite <- !Z.div_div by lia. rewrite H2. reflexivity. }
    rewrite E. destruct (Z.even (x / 8)); cbn; auto.
Qed.
Definition c52_state : deblock_state :=
  {| d_levels := fun i => 20 + i; d_deltas_enabled := false; d_ref_deltas := fun _ => 0; d_mode_deltas := fun _ => 0;
     d_block_deltas_enabled := false; d_block_delta_shift := 0; d_block_delta_multi := false |}.
Definition c52_plane (r c : Z) : Z := (100 + 3 * (c / 4) + 2 * (r / 4) + (r * c) mod 3) mod 256.
Example c52_changes :
  let out0 := deblock_plane c52_state c52_blocks 0 8 8 0 0 12 6 46 21 c52_plane in
  let out1 := deblock_plane c52_state c52_blocks 1 8 8 1 1 12 6 46 21 c52_plane in
  (map (out0 16) [13; 14; 15; 16; 17; 32; 33; 39; 40], map (c52_plane 16) [13; 14; 15; 16; 17; 32; 33; 39; 40],
   map (out1 7) [13; 14; 15; 16; 17; 18; 19; 20; 21], map (c52_plane 7) [13; 14; 15; 16; 17; 18; 19; 20; 21]) =
  ([117; 118; 118; 119; 120; 132; 131; 136; 137], [118; 119; 117; 121; 122; 134; 132; 135; 139],
   [112; 113; 112; 114; 116; 115; 116; 118; 117], [112; 113; 111; 115; 116; 114; 115; 119; 117]).
Proof. vm_compute. reflexivity. Qed.

(** With the per-reference deltas switched on (rav1e never does) the level would not be the
    decoder's: the deltas are looked up one reference too low. *)
Definition c52_delta_state : deblock_state :=
  {| d_levels := fun _ => 20; d_deltas_enabled := true; d_ref_deltas := fun i => nth (Z.to_nat i) [1; 0; 0; 0; -1; 0; -1; -1] 0; d_mode_deltas := fun _ => 0;
     d_block_deltas_enabled := false; d_block_delta_shift := 0; d_block_delta_multi := false |}.
Theorem C52_deltas_refuted : exists d b, d_block_deltas_enabled d = false /\ (forall i, 0 <= d_levels d i <= 63) /\ b_ref b = 1 /\
  deblock_adjusted_level d b 0 true <> Spec.lvl_of (params_of d) 0 (unit_of b) 0.
Proof.
  exists c52_delta_state, {| b_w := 2; b_h := 2; b_tw := 2; b_th := 2; b_skip := false; b_ref := 1; b_moving := true; b_deltas := fun _ => 0 |}.
  split; [reflexivity|]. split; [intros; cbn; lia|]. split; [reflexivity|]. vm_compute. discriminate.
Qed.
Print Assumptions C52_deltas_refuted.
(** Only that lookup is at fault: where the deltas of the references are equal, the level is
    the decoder's, with the deltas of the modes. *)
Theorem C52_mode_deltas : forall d b pli pass k, d_deltas_enabled d = true -> d_block_deltas_enabled d = false ->
  (forall i, 0 <= d_levels d i <= 63) -> (forall i, d_ref_deltas d i = k) -> pass = 0 \/ pass = 1 ->
  deblock_adjusted_level d b pli (pass =? 0) = Spec.lvl_of (params_of d) pli (unit_of b) pass.
Proof.
  intros d b pli pass k O1 O2 LV RD P. unfold Spec.lvl_of, deblock_adjusted_level.
  cbn [params_of unit_of Spec.loop_filter_delta_enabled Spec.loop_filter_level Spec.loop_filter_ref_deltas Spec.loop_filter_mode_deltas Spec.u_ref Spec.u_mode].
  rewrite O1, O2, !RD.
  set (i := if pli =? 0 then pass else pli + 1).
  replace (if pli =? 0 then (if pass =? 0 then 0 else 1) else pli + 1) with i.
  2:{ unfold i. destruct (pli =? 0); [|reflexivity]. destruct P as [->| ->]; reflexivity. }
  pose proof (LV i) as L. set (v := d_levels d i) in *. clearbody v.
  assert (C : Spec.Clip3 0 63 v = v) by (unfold Spec.Clip3; destruct (Z.ltb_spec v 0); [lia|]; destruct (Z.ltb_spec 63 v); [lia|reflexivity]).
  rewrite C. rewrite Z.shiftr_div_pow2 by lia. change (2 ^ 5) with 32.
  assert (N : 0 <= v / 32) by (apply Z.div_pos; lia). set (n := v / 32) in *. clearbody n.
  rewrite !Z.shiftl_mul_pow2 by exact N. unfold clamp, MAX_LOOP_FILTER, Spec.Clip3.
  destruct (b_ref b =? 0); [rewrite Z.add_0_r|]; reflexivity.
Qed.
Print Assumptions C52_mode_deltas.

(** C41, deblocking: pixels stay in range (C52_deblock_is_decoder), and a flat plane is
    unchanged at every level *)
Theorem C41_deblock_flat d blocks pli bd tbits xdec ydec width height bcols brows p v :
  tiling blocks ->
  0 <= pli <= 2 -> (pli = 0 -> xdec = 0 /\ ydec = 0) ->
  xdec = 0 \/ xdec = 1 -> ydec = 0 \/ ydec = 1 ->
  8 <= bd <= tbits ->
  (forall i, 0 <= i < 4 -> 0 <= d_levels d i <= 63) ->
  d_deltas_enabled d = false -> d_block_deltas_enabled d = false ->
  0 < width -> 0 < height -> (width + 3) / 4 <= bcols -> (height + 3) / 4 <= brows ->
  0 <= v < 2 ^ bd -> (forall r c, p r c = v) ->
  forall r c, deblock_plane d blocks pli bd tbits xdec ydec bcols brows width height p r c = v.
Proof.
  intros T P1 P2 DX DY B LV O1 O2 W H BC BR V F r c.
  destruct (C52_deblock_is_decoder d blocks pli bd tbits xdec ydec width height bcols brows p T P1 P2 DX DY B LV O1 O2 W H BC BR) as [E _].
  - intros r' c'. rewrite F. exact V.
  - rewrite E. apply loop_filter_flat; [lia|exact V|exact F].
Qed.
Print Assumptions C41_deblock_flat.

(** ** C53: the levels chosen by the search *)
Lemma v_size_ok blocks pli xdec ydec x y : (forall y x, 0 <= b_tw (blocks y x) /\ 0 <= b_th (blocks y x)) ->
  size_ok (v_size blocks pli xdec ydec x y) /\ size_ok (h_size_tally blocks pli xdec ydec x y).
Proof.
  intros T. unfold size_ok, v_size, h_size_tally.
  assert (K : forall b p e, (exists y x, b = blocks y x) -> (exists y x, p = blocks y x) -> let s := deblock_size b p xdec ydec pli true e in
     s <= 0 \/ s = 4 \/ s = 6 \/ s = 8 \/ s = 14).
  { intros b p e (y1 & x1 & ->) (y2 & x2 & ->). unfold deblock_size. cbv zeta. destruct (negb _); [left; lia|right].
    assert (N : forall y x, 0 <= tx_w pli xdec (blocks y x)).
    { intros y0 x0. unfold tx_w, chroma_side. destruct (pli =? 0); [apply T|lia]. }
    pose proof (N y1 x1) as N1. pose proof (N y2 x2) as N2.
    set (a := tx_w pli xdec (blocks y1 x1)) in *. set (b := tx_w pli xdec (blocks y2 x2)) in *. clearbody a b.
    assert (M : Z.min (2 ^ a) (2 ^ b) = 2 ^ Z.min a b).
    { destruct (Z.le_ge_cases a b).
      - rewrite !Z.min_l; [reflexivity|lia|apply Z.pow_le_mono_r; lia].
      - rewrite !Z.min_r; [reflexivity|lia|apply Z.pow_le_mono_r; lia]. }
    rewrite M. rewrite Z.shiftl_mul_pow2 by lia. set (m := Z.min a b). assert (0 <= m) by lia. clearbody m.
    destruct (Z.eq_dec m 0) as [->|]; [change (2 ^ 0 * 2 ^ 2) with 4; destruct (pli =? 0); lia|].
    destruct (Z.eq_dec m 1) as [->|]; [change (2 ^ 1 * 2 ^ 2) with 8; destruct (pli =? 0); lia|].
    assert (2 ^ 2 <= 2 ^ m) by (apply Z.pow_le_mono_r; lia). change (2 ^ 2) with 4 in *. destruct (pli =? 0); lia. }
  split; cbv zeta; (destruct (_ =? 0); [|left; lia]); apply K; unfold deblock_left, deblock_up; eauto.
Qed.

Section Search.
Variables (blocks : Z -> Z -> block) (pli bd tbits xdec ydec : Z) (rec src : plane) (bcols brows crop_w crop_h : Z).
Hypothesis (T : forall y x, 0 <= b_tw (blocks y x) /\ 0 <= b_th (blocks y x)).
Hypothesis (B : 8 <= bd <= tbits) (R : forall r c, 0 <= rec r c < 2 ^ bd).
Hypothesis (DX : xdec = 0 \/ xdec = 1) (DY : ydec = 0 \/ ydec = 1).
Hypothesis (W : 0 < crop_w) (H : 0 < crop_h) (BC : (crop_w + 3) / 4 <= bcols) (BR : (crop_h + 3) / 4 <= brows).
Lemma counts : 0 < edge_count brows crop_h ydec /\ 0 < edge_count bcols crop_w xdec.
Proof.
  destruct (count_mult bcols crop_w xdec DX W BC) as (n & _ & _ & C1). destruct (count_mult brows crop_h ydec DY H BR) as (m & _ & _ & C2).
  specialize (C1 0). specialize (C2 0). cbn in C1, C2. lia.
Qed.
Let ve := v_error blocks pli bd tbits xdec ydec rec src bcols brows crop_w crop_h.
Let ht := h_error_tally blocks pli bd tbits xdec ydec rec src bcols brows crop_w crop_h.
Let he := h_error blocks pli bd tbits xdec ydec rec src bcols brows crop_w crop_h.
Let t := sse_plane blocks pli bd xdec ydec rec src bcols brows crop_w crop_h.
Lemma tv L : 0 <= L <= 63 -> running (fst t) (Z.to_nat L) = ve L + (running (fst t) 0 - ve 0).
Proof.
  intros HL. destruct counts as [C1 C2].
  pose proof (tally_v blocks pli bd tbits xdec ydec rec src B R bcols brows crop_w crop_h DX DY C1 C2
    (fun x y => proj1 (v_size_ok blocks pli xdec ydec x y T)) (fun x y => proj2 (v_size_ok blocks pli xdec ydec x y T)) L HL) as E. cbv zeta in E. fold t ve in E. lia.
Qed.
Lemma th L : 0 <= L <= 63 -> running (snd t) (Z.to_nat L) = ht L + (running (snd t) 0 - ht 0).
Proof.
  intros HL. destruct counts as [C1 C2].
  pose proof (tally_h blocks pli bd tbits xdec ydec rec src B R bcols brows crop_w crop_h DX DY C1 C2
    (fun x y => proj1 (v_size_ok blocks pli xdec ydec x y T)) (fun x y => proj2 (v_size_ok blocks pli xdec ydec x y T)) L HL) as E. cbv zeta in E. fold t ht in E. lia.
Qed.
Lemma search_luma : exists lv lh, sse_levels 0 (fst t) (snd t) = [lv; lh] /\ 0 <= lv <= 63 /\ 0 <= lh <= 63 /\
  (forall L, 0 <= L <= 63 -> ve lv <= ve L) /\ (forall L, 0 <= L <= 63 -> ht lh <= ht L).
Proof.
  unfold sse_levels. cbn [Z.eqb]. eexists _, _. split; [reflexivity|].
  destruct (best_level_min (fun i => running (fst t) (Z.to_nat i))) as [A1 A2].
  destruct (best_level_min (fun i => running (snd t) (Z.to_nat i))) as [B1 B2].
  split; [exact A1|]. split; [exact B1|]. split; intros L HL.
  - specialize (A2 L HL). rewrite !tv in A2 by assumption. lia.
  - specialize (B2 L HL). rewrite !th in B2 by assumption. lia.
Qed.
Lemma search_chroma : pli <> 0 -> exists l, sse_levels pli (fst t) (snd t) = [l] /\ 0 <= l <= 63 /\
  (forall L, 0 <= L <= 63 -> ve l + ht l <= ve L + ht L).
Proof.
  intros N. unfold sse_levels. rewrite (proj2 (Z.eqb_neq pli 0) N). eexists. split; [reflexivity|].
  destruct (best_level_min (fun i => running (fst t) (Z.to_nat i) + running (snd t) (Z.to_nat i))) as [A1 A2].
  split; [exact A1|]. intros L HL. specialize (A2 L HL). rewrite !tv, !th in A2 by assumption. lia.
Qed.
(** the tally of the horizontal edges counts with the right filters if every transform is square *)
Lemma h_square L : (forall y x, tx_w pli xdec (blocks y x) = tx_h pli ydec (blocks y x)) -> ht L = he L.
Proof.
  intros S. unfold ht, he, h_error_tally, h_error, total.
  assert (E : forall x y, h_size_tally blocks pli xdec ydec x y = h_size blocks pli xdec ydec x y).
  { intros x y. unfold h_size_tally, h_size. cbv zeta. destruct (_ =? 0); [|reflexivity]. unfold deblock_size, deblock_up. rewrite !S. reflexivity. }
  assert (G : forall l a, fold_left (fun a e => a + h_edge_error bd tbits xdec ydec rec src (h_size_tally blocks pli xdec ydec (fst e) (snd e)) (fst e) (snd e) L) l a =
    fold_left (fun a e => a + h_edge_error bd tbits xdec ydec rec src (h_size blocks pli xdec ydec (fst e) (snd e)) (fst e) (snd e) L) l a).
  { induction l as [|e l IH]; intros a; cbn [fold_left]; [reflexivity|]. rewrite E. apply IH. }
  apply G.
Qed.
End Search.

(** C53, vertical edges.  The first level returned for luma minimises the squared error
    summed over all vertical edges, each taken by itself with the filter that
    [deblock_plane] would use there; among all levels, 0 (no filter) included. *)
Theorem C53_vertical_level_best blocks bd tbits rec src bcols brows crop_w crop_h :
  (forall y x, 0 <= b_tw (blocks y x) /\ 0 <= b_th (blocks y x)) ->
  8 <= bd <= tbits -> (forall r c, 0 <= rec r c < 2 ^ bd) ->
  0 < crop_w -> 0 < crop_h -> (crop_w + 3) / 4 <= bcols -> (crop_h + 3) / 4 <= brows ->
  let t := sse_plane blocks 0 bd 0 0 rec src bcols brows crop_w crop_h in
  let err := v_error blocks 0 bd tbits 0 0 rec src bcols brows crop_w crop_h in
  exists lv lh, sse_levels 0 (fst t) (snd t) = [lv; lh] /\ 0 <= lv <= 63 /\
    forall L, 0 <= L <= 63 -> err lv <= err L.
Proof.
  intros T B R W H BC BR. cbv zeta.
  destruct (search_luma blocks 0 bd tbits 0 0 rec src bcols brows crop_w crop_h T B R (or_introl eq_refl) (or_introl eq_refl) W H BC BR)
    as (lv & lh & E & A1 & _ & A2 & _). eauto.
Qed.
Print Assumptions C53_vertical_level_best.

(** C53, all levels, when every transform is square (true for chroma 4:2:0 and 4:4:4 with
    square blocks, not in general).  Missing: rectangular transforms, for which it is
    false for horizontal edges, see C53_horizontal_level_refuted. *)
Theorem C53_levels_best_square_partial blocks pli bd tbits xdec ydec rec src bcols brows crop_w crop_h :
  (forall y x, 0 <= b_tw (blocks y x) /\ 0 <= b_th (blocks y x)) ->
  (forall y x, tx_w pli xdec (blocks y x) = tx_h pli ydec (blocks y x)) ->
  8 <= bd <= tbits -> (forall r c, 0 <= rec r c < 2 ^ bd) ->
  xdec = 0 \/ xdec = 1 -> ydec = 0 \/ ydec = 1 ->
  0 < crop_w -> 0 < crop_h -> (crop_w + 3) / 4 <= bcols -> (crop_h + 3) / 4 <= brows ->
  let t := sse_plane blocks pli bd xdec ydec rec src bcols brows crop_w crop_h in
  let ve := v_error blocks pli bd tbits xdec ydec rec src bcols brows crop_w crop_h in
  let he := h_error blocks pli bd tbits xdec ydec rec src bcols brows crop_w crop_h in
  if pli =? 0 then
    exists lv lh, sse_levels pli (fst t) (snd t) = [lv; lh] /\
      forall L, 0 <= L <= 63 -> ve lv <= ve L /\ he lh <= he L
  else
    exists l, sse_levels pli (fst t) (snd t) = [l] /\ forall L, 0 <= L <= 63 -> ve l + he l <= ve L + he L.
Proof.
  intros T S B R DX DY W H BC BR. cbv zeta.
  pose proof (fun L => h_square blocks pli bd tbits xdec ydec rec src bcols brows crop_w crop_h L S) as HS.
  destruct (Z.eqb_spec pli 0) as [E|N].
  - subst pli. destruct (search_luma blocks 0 bd tbits xdec ydec rec src bcols brows crop_w crop_h T B R DX DY W H BC BR)
      as (lv & lh & E & A1 & A2 & A3 & A4). exists lv, lh. split; [exact E|]. intros L HL. split; [apply A3, HL|].
    rewrite <- !HS. apply A4, HL.
  - destruct (search_chroma blocks pli bd tbits xdec ydec rec src bcols brows crop_w crop_h T B R DX DY W H BC BR N)
      as (l & E & A1 & A2). exists l. split; [exact E|]. intros L HL. rewrite <- !HS. apply A2, HL.
Qed.
Print Assumptions C53_levels_best_square_partial.

(** Not true of horizontal edges: the search measures them with filters chosen by the
    widths of the transforms where the filter uses their heights (src/deblock.rs:1259
    passes [vertical] = true).  With 16x8 transforms it can choose a level which is worse
    than no filter at all. *)
Definition c53_block : block :=
  {| b_w := 2; b_h := 1; b_tw := 2; b_th := 1; b_skip := false; b_ref := 0; b_moving := false; b_deltas := fun _ => 0 |}.
Definition c53_rec (r c : Z) : Z := if r <? 8 then 100 else 140.
Definition c53_src (r c : Z) : Z :=
  let k := if r <? 8 then r else 15 - r in
  let v := if k =? 2 then 103 else if k =? 3 then 105 else if k =? 4 then 108 else if k =? 5 then 120 else if k =? 6 then 105 else 100 in
  if r <? 8 then v else 240 - v.
Theorem C53_horizontal_level_refuted :
  ~ (forall blocks bd tbits rec src bcols brows crop_w crop_h,
     tiling blocks -> 8 <= bd <= tbits -> (forall r c, 0 <= rec r c < 2 ^ bd) ->
     0 < crop_w -> 0 < crop_h -> (crop_w + 3) / 4 <= bcols -> (crop_h + 3) / 4 <= brows ->
     let t := sse_plane blocks 0 bd 0 0 rec src bcols brows crop_w crop_h in
     let err := h_error blocks 0 bd tbits 0 0 rec src bcols brows crop_w crop_h in
     exists lv lh, sse_levels 0 (fst t) (snd t) = [lv; lh] /\ err lh <= err 0).
Proof.
  intros A.
  assert (T : tiling (fun _ _ => c53_block)).
  { constructor; cbn; intros; try lia; auto. }
  specialize (A (fun _ _ => c53_block) 8 8 c53_rec c53_src 4 4 16 16 T ltac:(lia)).
  assert (R : forall r c, 0 <= c53_rec r c < 2 ^ 8) by (intros r c; unfold c53_rec; destruct (r <? 8); lia).
  destruct (A R ltac:(lia) ltac:(lia) ltac:(vm_compute; discriminate) ltac:(vm_compute; discriminate)) as (lv & lh & E & H).
  vm_compute in E. injection E as <- <-. vm_compute in H. apply H. reflexivity.
Qed.
Print Assumptions C53_horizontal_level_refuted.
Example c53_what_happens :
  let t := sse_plane (fun _ _ => c53_block) 0 8 0 0 c53_rec c53_src 4 4 16 16 in
  let err := h_error (fun _ _ => c53_block) 0 8 8 0 0 c53_rec c53_src 4 4 16 16 in
  (sse_levels 0 (fst t) (snd t), err 0, err 32) = ([0; 32], 15648, 17248).
Proof. vm_compute. reflexivity. Qed.
