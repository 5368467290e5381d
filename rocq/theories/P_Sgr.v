(** C55: loop restoration is the decoder's; C41, this filter. *)
From Verif Require Import Base Sgr_model Sgr_box Sgr_kernel Sgr_stripe Sgr_frame.
From Verif Require Sgr_spec.
Local Open Scope Z_scope.

(** ** The sizes of restoration units *)
Definition unit_like (v : Z) : Prop := v = 64 \/ v = 128 \/ v = 256 \/ 512 <= v.
Lemma pow_like b t : b = 6 -> 0 <= t -> unit_like (Z.shiftl 1 (b + t)).
Proof.
  intros -> Ht. rewrite Z.shiftl_mul_pow2, Z.mul_1_l by lia. rewrite Z.pow_add_r by lia. change (2 ^ 6) with 64. unfold unit_like.
  assert (D : t = 0 \/ t = 1 \/ t = 2 \/ 3 <= t) by lia. destruct D as [->|[->|[->|D]]]; [left; reflexivity|right; left; reflexivity|right; right; left; reflexivity|].
  right; right; right. assert (2 ^ 3 <= 2 ^ t) by (apply Z.pow_le_mono_r; lia). change (2 ^ 3) with 8 in *. lia.
Qed.
Lemma like_min a b : unit_like a -> unit_like b -> unit_like (Z.min a b).
Proof. intros A B. destruct (Z.min_spec a b) as [[_ ->]|[_ ->]]; assumption. Qed.
Lemma like_le a : unit_like a -> a <= 256 -> a = 64 \/ a = 128 \/ a = 256.
Proof. unfold unit_like. lia. Qed.
Lemma min_pow b s t : 0 <= b -> 0 <= s -> 0 <= t -> Z.min (Z.shiftl 1 (b + s)) (Z.shiftl 1 (b + t)) = Z.shiftl 1 (b + Z.min s t).
Proof.
  intros. rewrite !Z.shiftl_mul_pow2, !Z.mul_1_l by lia. destruct (Z.min_spec s t) as [[L ->]|[L ->]]; [apply Z.min_l|apply Z.min_r]; apply Z.pow_le_mono_r; lia.
Qed.
(** Whatever the quantizer, the frame size and the tiles (of an even number of superblocks in
    width when 4:2:2 is tiled, which the tiler sees to), units are 64, 128 or 256 luma pixels;
    chroma units have the same size, or half of it in 4:2:0 and only there: all that the
    syntax can say.  No unit is smaller than a stripe. *)
Theorem C55_unit_sizes xdec ydec large restoration q width height tiled tzh tzv y uv :
  (xdec = 0 /\ ydec = 0) \/ (xdec = 1 /\ ydec = 0) \/ (xdec = 1 /\ ydec = 1) ->
  0 <= tzh -> 0 <= tzv -> (tiled = true -> xdec = 1 -> ydec = 0 -> 1 <= tzh) ->
  unit_sizes xdec ydec large restoration false q width height tiled tzh tzv = (y, uv) ->
  (y = 64 \/ y = 128 \/ y = 256) /\ (uv = y \/ (ydec = 1 /\ 2 * uv = y)).
Proof.
  intros Hd Hh Hv Ht. unfold unit_sizes. cbv zeta.
  set (chroma := if 0 <? (if (0 <? xdec) && (0 <? ydec) then 1 else 0) then _ else 0).
  assert (Hc : (chroma = 0 \/ chroma = 1) /\ (ydec = 0 -> chroma = 0) /\
    (ydec = 1 -> (if 200 <? q then 0 else if 160 <? q then 1 else 2) = 2 -> chroma = 1)).
  { unfold chroma. destruct Hd as [[-> ->]|[[-> ->]|[-> ->]]]; cbn [Z.ltb Z.compare andb]; try (split; [left; reflexivity|split; [reflexivity|discriminate]]).
    destruct (200 <? q); [|destruct (160 <? q)]; change (0 =? 2) with false; change (1 =? 2) with false; change (2 =? 2) with true; cbv iota.
    - match goal with |- context [if ?b then 1 else 0] => destruct b end; (split; [auto|]; split; [discriminate|discriminate]).
    - match goal with |- context [if ?b then 1 else 0] => destruct b end; (split; [auto|]; split; [discriminate|discriminate]).
    - split; [auto|]. split; [discriminate|auto]. }
  clearbody chroma. destruct Hc as (C1 & C2 & C3).
  set (base := if 200 <? q then 0 else if 160 <? q then 1 else 2) in *.
  assert (Hb : base = 0 \/ base = 1 \/ base = 2) by (unfold base; destruct (200 <? q); [|destruct (160 <? q)]; auto). clearbody base.
  assert (S : exists ys uvs, (if large && restoration then (base, base + chroma) else (2, 2 + (if (0 <? xdec) && (0 <? ydec) then 1 else 0))) = (ys, uvs) /\
    (ys = 0 \/ ys = 1 \/ ys = 2) /\ (uvs = ys \/ (ydec = 1 /\ uvs = ys + 1)) /\ (ydec = 1 -> ys = 2 -> uvs = 3)).
  { destruct (large && restoration).
    - exists base, (base + chroma). split; [reflexivity|]. split; [exact Hb|]. split; [|intros A B; specialize (C3 A B); lia].
      destruct C1 as [-> | ->]; [left; lia|right]. split; [|reflexivity]. destruct Hd as [[_ D]|[[_ D]|[_ D]]]; [specialize (C2 D); lia|specialize (C2 D); lia|exact D].
    - eexists _, _. split; [reflexivity|]. split; [auto|]. destruct Hd as [[-> ->]|[[-> ->]|[-> ->]]]; cbn; (split; [auto|]); intros; lia. }
  destruct S as (ys & uvs & -> & Y & U & U3). clear C1 C2 C3 Hb.
  assert (EY : (ys = 0 /\ Z.shiftl 1 (8 - ys) = 256) \/ (ys = 1 /\ Z.shiftl 1 (8 - ys) = 128) \/ (ys = 2 /\ Z.shiftl 1 (8 - ys) = 64)) by (destruct Y as [->|[->| ->]]; cbn; auto).
  assert (EU : (Z.shiftl 1 (8 - uvs) = Z.shiftl 1 (8 - ys) /\ (ydec = 1 -> ys <> 2)) \/ (ydec = 1 /\ 2 * Z.shiftl 1 (8 - uvs) = Z.shiftl 1 (8 - ys))).
  { clear - Y U U3. destruct U as [->|[D ->]].
    - left. split; [reflexivity|]. intros D E. specialize (U3 D E). lia.
    - right. split; [exact D|]. destruct Y as [->|[->| ->]]; reflexivity. }
  set (Y0 := Z.shiftl 1 (8 - ys)) in *. set (U0 := Z.shiftl 1 (8 - uvs)) in *. clearbody Y0 U0. clear Y U U3.
  assert (QY : unit_like Y0 /\ Y0 <= 256) by (clear - EY; unfold unit_like; lia).
  destruct tiled.
  - specialize (Ht eq_refl). pose proof (pow_like 6 (Z.min tzh tzv) ltac:(lia) ltac:(lia)) as P.
    destruct Hd as [[-> ->]|[[-> ->]|[-> ->]]].
    + change (6 - 0) with 6. rewrite min_pow by lia. set (p := Z.shiftl 1 (6 + Z.min tzh tzv)) in *. clearbody p.
      destruct EU as [[-> _]|[D _]]; [|discriminate]. rewrite (Z.eqb_refl (Z.min Y0 p)). change (negb true) with false. rewrite andb_false_r. intros X. injection X as <- <-.
      split; [apply like_le; [apply like_min; [apply QY|exact P]|clear - QY; lia]|left; reflexivity].
    + change (6 - 0) with 6. change (6 - 1) with 5. destruct EU as [[-> _]|[D _]]; [|discriminate].
      pose proof (pow_like 6 (tzh - 1) ltac:(lia) ltac:(lia)) as P1. replace (6 + (tzh - 1)) with (5 + tzh) in P1 by lia.
      pose proof (pow_like 6 tzv ltac:(lia) Hv) as P2.
      set (p := Z.shiftl 1 (6 + Z.min tzh tzv)) in *. set (p1 := Z.shiftl 1 (5 + tzh)) in *. set (p2 := Z.shiftl 1 (6 + tzv)) in *. clearbody p p1 p2. 
      assert (L1 : unit_like (Z.min Y0 p)) by (apply like_min; [apply QY|exact P]).
      assert (L2 : unit_like (Z.min Y0 (Z.min p1 p2))) by (apply like_min; [apply QY|apply like_min; assumption]).
      change (0 =? 0) with true. cbn [andb]. set (v := Z.min Y0 p) in *. set (v' := Z.min Y0 (Z.min p1 p2)) in *.
      assert (v <= 256) by (unfold v; clear - QY; lia). clearbody v v'.
      destruct (Z.eqb_spec v v') as [E|E]; cbn [negb]; intros X; injection X as <- <-.
      * split; [apply like_le; assumption|left; congruence].
      * split; [apply like_le; [apply like_min; assumption|clear - H; lia]|left; reflexivity].
    + change (6 - 1) with 5. rewrite min_pow by lia. change (1 =? 0) with false. cbn [andb].
      assert (D2 : Z.shiftl 1 (6 + Z.min tzh tzv) = 2 * Z.shiftl 1 (5 + Z.min tzh tzv)).
      { rewrite !Z.shiftl_mul_pow2 by lia. replace (6 + Z.min tzh tzv) with (1 + (5 + Z.min tzh tzv)) by lia. rewrite Z.pow_add_r by lia. ring. }
      rewrite D2 in P |- *. set (m := Z.shiftl 1 (5 + Z.min tzh tzv)) in *. clearbody m. clear D2.
      intros X. assert (X1 : Z.min Y0 (2 * m) = y) by congruence. assert (X2 : Z.min U0 m = uv) by congruence. subst y uv. clear X.
      split; [apply like_le; [apply like_min; [apply QY|exact P]|clear - QY; lia]|].
      destruct EU as [[-> N]|[_ D]]; [specialize (N eq_refl)|right; split; [reflexivity|clear - D; lia]].
      clear - EY N P. unfold unit_like in P. destruct EY as [[_ ->]|[[_ ->]|[E _]]]; [| |lia];
      (destruct P as [P|[P|[P|P]]]; [replace m with 32 by lia|replace m with 64 by lia|replace m with 128 by lia|]); try (right; split; reflexivity); try (left; reflexivity); left; lia.
  - clear Ht. destruct EU as [[-> _]|[-> D]].
    + rewrite (Z.eqb_refl Y0). change (negb true) with false. rewrite andb_false_r. intros X. injection X as <- <-. split; [apply like_le; apply QY|left; reflexivity].
    + change (1 =? 0) with false. cbn [andb]. intros X. injection X as <- <-. split; [apply like_le; apply QY|right; split; [reflexivity|exact D]].
Qed.
Print Assumptions C55_unit_sizes.
Example C55_unit_sizes_420 : unit_sizes 1 1 true true false 220 640 480 true 1 0 = (64, 32). Proof. reflexivity. Qed.
Example C55_unit_sizes_420_large : unit_sizes 1 1 true true false 220 1920 1080 false 0 0 = (256, 256). Proof. reflexivity. Qed.
(* in 4:2:2 with tiles of an odd number of superblocks a unit would be half a superblock *)
Example C55_unit_sizes_422_odd : unit_sizes 1 0 true true false 220 640 480 true 0 0 = (32, 32). Proof. reflexivity. Qed.

(** the planes that RestorationState::new sets up *)
Lemma new_plane_geom bd W H luma xdec ydec unit units cdef curr :
  let dx := if luma : bool then 0 else xdec in let dy := if luma then 0 else ydec in
  (xdec = 0 /\ ydec = 0) \/ (xdec = 1 /\ ydec = 0) \/ (xdec = 1 /\ ydec = 1) -> bd_ok bd -> 1 <= W -> 1 <= H ->
  (unit = 64 \/ unit = 128 \/ unit = 256 \/ (luma = false /\ ydec = 1 /\ unit = 32)) ->
  (forall y x, 0 <= y < Sgr_spec.Round2 H dy -> 0 <= x < Sgr_spec.Round2 W dx -> 0 <= cdef y x <= 2 ^ bd - 1) ->
  (forall y x, 0 <= y < Sgr_spec.Round2 H dy -> 0 <= x < Sgr_spec.Round2 W dx -> 0 <= curr y x <= 2 ^ bd - 1) ->
  fgeom bd W H dx dy (new_plane luma xdec ydec unit W H units) cdef curr.
Proof.
  intros dx dy Hd Hb HW HH Hu Hc1 Hc2.
  assert (Dx : dx = 0 \/ dx = 1) by (unfold dx; destruct luma; lia). assert (Dy : dy = 0 \/ dy = 1) by (unfold dy; destruct luma; lia).
  constructor; try assumption; unfold new_plane; cbn [r_unit r_stripe_height r_cols r_rows].
  - unfold dy. destruct luma; [reflexivity|]. destruct Hd as [[-> ->]|[[-> ->]|[-> ->]]]; reflexivity.
  - exists (unit / (if luma then 64 else if (0 <? xdec) && (0 <? ydec) then 32 else 64)).
    destruct luma; [|destruct Hd as [[-> ->]|[[-> ->]|[-> ->]]]]; cbn [Z.ltb Z.compare andb];
    (destruct Hu as [->|[->|[->|(A & B & ->)]]]; try discriminate; (split; [vm_compute; discriminate|reflexivity])).
  - destruct Hu as [->|[->|[->|(A & B & ->)]]]; lia.
  - fold dx. rewrite round2_shift by lia. unfold unit_count, Sgr_spec.count_units_in_frame. rewrite Z.shiftr_div_pow2 by lia. reflexivity.
  - fold dy. rewrite round2_shift by lia. unfold unit_count, Sgr_spec.count_units_in_frame. rewrite Z.shiftr_div_pow2 by lia. reflexivity.
Qed.

(** ** C55 *)
(** [valid]: what the search produces and the syntax can say: no filter, or a self guided
    filter whose weight for a pass that the set leaves out is zero. *)
Definition valid := sgr_valid.
Definition spec_plane (bd W H xdec ydec : Z) (rp : rplane) (cdef curr : Z -> Z -> Z) : Z -> Z -> Z :=
  Sgr_spec.LrFrame bd W H xdec ydec cdef curr (r_unit rp) (fun r c => conv (r_units rp r c)).

(** For every plane of every frame, with the unit sizes the encoder picks, the filter ends
    without a panic (all slices and asserts hold) and every sample of the visible plane is
    the one of the AV1 specification.  The memory is the real one: one pair of buffers of
    integral images with u32 sums that wrap, which is reused for all units; a ring of rows;
    u32 products that are shown not to overflow. *)
Theorem C55_restoration_is_decoder bd W H luma xdec ydec large restoration q tiled tzh tzv units cdef curr :
  let sizes := unit_sizes xdec ydec large restoration false q W H tiled tzh tzv in
  let rp := new_plane luma xdec ydec (if luma : bool then fst sizes else snd sizes) W H units in
  let dx := if luma then 0 else xdec in let dy := if luma then 0 else ydec in
  let crop_w := Sgr_spec.Round2 W dx in let crop_h := Sgr_spec.Round2 H dy in
  (xdec = 0 /\ ydec = 0) \/ (xdec = 1 /\ ydec = 0) \/ (xdec = 1 /\ ydec = 1) ->
  0 <= tzh -> 0 <= tzv -> (tiled = true -> xdec = 1 -> ydec = 0 -> 1 <= tzh) ->
  (bd = 8 \/ bd = 10 \/ bd = 12) -> 1 <= W -> 1 <= H ->
  (forall r c, valid (units r c)) ->
  (forall y x, 0 <= y < crop_h -> 0 <= x < crop_w -> 0 <= cdef y x <= 2 ^ bd - 1 /\ 0 <= curr y x <= 2 ^ bd - 1) ->
  exists out, lrf_filter_plane bd true W H dx dy rp cdef curr = Some out /\
    forall y x, 0 <= y < crop_h -> 0 <= x < crop_w -> out y x = spec_plane bd W H dx dy rp cdef curr y x.
Proof.
  intros sizes rp dx dy crop_w crop_h Hd Hh Hv Ht Hb HW HH HV HP.
  destruct (C55_unit_sizes xdec ydec large restoration q W H tiled tzh tzv (fst sizes) (snd sizes) Hd Hh Hv Ht (surjective_pairing sizes)) as [Y U].
  apply plane_is_spec; [|intros; apply HV].
  apply new_plane_geom; try assumption; [|intros; apply HP; assumption|intros; apply HP; assumption].
  destruct luma; [lia|]. destruct U as [->|[U1 U2]]; [lia|]. destruct Y as [Y|[Y|Y]]; lia.
Qed.
Print Assumptions C55_restoration_is_decoder.

(** ** C41 for this filter *)
Lemma clip_range lo hi x : lo <= hi -> lo <= Sgr_spec.Clip3 lo hi x <= hi.
Proof. intros. unfold Sgr_spec.Clip3. destruct (Z.ltb_spec x lo); [lia|]. destruct (Z.ltb_spec hi x); lia. Qed.
Theorem C41_restoration_range bd W H xdec ydec rp cdef curr out y x :
  fgeom bd W H xdec ydec rp cdef curr ->
  (forall r c, 0 <= r < r_rows rp -> 0 <= c < r_cols rp -> valid (r_units rp r c)) ->
  lrf_filter_plane bd true W H xdec ydec rp cdef curr = Some out ->
  0 <= y < Sgr_spec.Round2 H ydec -> 0 <= x < Sgr_spec.Round2 W xdec -> 0 <= out y x <= 2 ^ bd - 1.
Proof.
  intros F V E Hy Hx. destruct (plane_is_spec _ _ _ _ _ _ _ _ F V) as (o & E' & R). rewrite E in E'. injection E' as <-.
  rewrite (R y x Hy Hx). assert (B : 0 <= 2 ^ bd - 1) by (destruct (f_bd _ _ _ _ _ _ _ _ F) as [->|[->| ->]]; vm_compute; discriminate).
  unfold Sgr_spec.LrFrame. cbv zeta. destruct (conv _); [apply (f_cdef _ _ _ _ _ _ _ _ F); assumption| |].
  - unfold Sgr_spec.wiener. cbv zeta. apply clip_range, B.
  - unfold Sgr_spec.self_guided. cbv zeta. apply clip_range, B.
Qed.
Print Assumptions C41_restoration_range.

(** *** Flat areas, 8 bits *)
Lemma round2_0 v : Sgr_spec.Round2 v 0 = v.
Proof. reflexivity. Qed.
Lemma sum_const k lo n : Sgr_spec.sum (fun _ => k) lo n = Z.of_nat n * k.
Proof. induction n as [|n IH]; cbn [Sgr_spec.sum]; [lia|]. rewrite IH. lia. Qed.
Section Flat.
Variables (W H xdec ydec : Z) (cdef curr : Z -> Z -> Z) (y x c : Z).
Notation ch := (Sgr_spec.Round2 H ydec).
Notation cw := (Sgr_spec.Round2 W xdec).
Hypothesis Hy : 0 <= y < ch.
Hypothesis Hx : 0 <= x < cw.
Hypothesis Hc : 0 <= c <= 255.
Hypothesis Flat : forall y' x', 0 <= y' < ch -> 0 <= x' < cw -> Z.abs (y' - y) <= 3 -> Z.abs (x' - x) <= 3 -> cdef y' x' = c /\ curr y' x' = c.
Variable row : Z.
Hypothesis Hrow : Sgr_spec.StripeStartY ydec row <= y <= Sgr_spec.StripeEndY ydec row.
Lemma flat_source dy dx : Z.abs dy <= 3 -> Z.abs dx <= 3 -> Sgr_spec.get_source_sample W H xdec ydec cdef curr row (y + dy) (x + dx) = c.
Proof.
  intros Ay Ax. unfold Sgr_spec.get_source_sample, Sgr_spec.PlaneEndX, Sgr_spec.PlaneEndY. cbv zeta.
  set (y' := Z.min (ch - 1) (Z.max 0 (y + dy))). set (x' := Z.max 0 (Z.min (cw - 1) (x + dx))).
  assert (0 <= y' < ch /\ Z.abs (y' - y) <= 3) by (unfold y'; clear - Hy Ay; lia).
  assert (0 <= x' < cw /\ Z.abs (x' - x) <= 3) by (unfold x'; clear - Hx Ax; lia). clearbody y' x'.
  set (S := Sgr_spec.StripeStartY ydec row) in *. set (E := Sgr_spec.StripeEndY ydec row) in *. clearbody S E.
  destruct (Z.ltb_spec y' S); [apply Flat; lia|]. destruct (Z.ltb_spec E y'); apply Flat; lia.
Qed.
Lemma flat_window f set pass i j : (Sgr_spec.r set pass = 1 \/ Sgr_spec.r set pass = 2) -> Z.abs i <= 1 -> Z.abs j <= 1 ->
  Sgr_spec.window W H xdec ydec cdef curr row set pass f (y + i) (x + j) = Sgr_spec.n set pass * f c.
Proof.
  intros Hr Hi Hj. unfold Sgr_spec.window, Sgr_spec.n. set (rr := Sgr_spec.r set pass) in *.
  assert (Hrr : 1 <= rr <= 2) by (clear - Hr; lia).
  transitivity (Sgr_spec.sum (fun _ => Z.of_nat (Z.to_nat (2 * rr + 1)) * f c) (- rr) (Z.to_nat (2 * rr + 1))).
  - apply sum_ext. intros dy Hdy. rewrite <- (sum_const (f c) (- rr)). apply sum_ext. intros dx Hdx. f_equal.
    rewrite <- !Z.add_assoc. apply flat_source; clear - Hi Hj Hdx Hdy Hrr; lia.
  - rewrite sum_const. clear - Hrr. rewrite Z2Nat.id by lia. lia.
Qed.
Lemma flat_A set pass i j : (Sgr_spec.r set pass = 1 \/ Sgr_spec.r set pass = 2) -> Z.abs i <= 1 -> Z.abs j <= 1 ->
  Sgr_spec.A 8 W H xdec ydec cdef curr row set pass (y + i) (x + j) = 1.
Proof.
  intros Hr Hi Hj. unfold Sgr_spec.A. rewrite !flat_window by assumption. unfold Sgr_spec.box_a2. cbv zeta.
  change (8 - 8) with 0. change (2 * 0) with 0. rewrite !round2_0.
  replace (Sgr_spec.n set pass * (c * c) * Sgr_spec.n set pass - Sgr_spec.n set pass * c * (Sgr_spec.n set pass * c)) with 0 by ring.
  change (Z.max 0 0) with 0. rewrite Z.mul_0_l. reflexivity.
Qed.
Lemma flat_B set pass i j : (Sgr_spec.r set pass = 1 \/ Sgr_spec.r set pass = 2) -> Z.abs i <= 1 -> Z.abs j <= 1 ->
  Sgr_spec.B 8 W H xdec ydec cdef curr row set pass (y + i) (x + j) =
  Sgr_spec.Round2 (255 * (Sgr_spec.n set pass * c) * Sgr_spec.oneByN set pass) 12.
Proof.
  intros Hr Hi Hj. pose proof (flat_A set pass i j Hr Hi Hj) as EA. unfold Sgr_spec.A in EA. unfold Sgr_spec.B, Sgr_spec.box_b2. rewrite EA.
  rewrite flat_window by assumption. reflexivity.
Qed.
Lemma flat_flt set pass i : (pass = 0 /\ Sgr_spec.r set pass = 2) \/ (pass = 1 /\ Sgr_spec.r set pass = 1) ->
  16 * c - 1 <= Sgr_spec.flt 8 W H xdec ydec cdef curr row set pass i y x <= 16 * c + 4 /\
  (pass = 1 -> Sgr_spec.flt 8 W H xdec ydec cdef curr row set pass i y x <= 16 * c) /\
  (pass = 0 -> 16 * c <= Sgr_spec.flt 8 W H xdec ydec cdef curr row set pass i y x).
Proof.
  intros Hp. assert (Hr : Sgr_spec.r set pass = 1 \/ Sgr_spec.r set pass = 2) by (destruct Hp as [[_ ->]|[_ ->]]; auto).
  assert (EC : cdef y x = c) by (apply Flat; [exact Hy|exact Hx| |]; rewrite Z.sub_diag; vm_compute; discriminate).
  destruct Hp as [[-> R]|[-> R]].
  - assert (EB : forall i j, Z.abs i <= 1 -> Z.abs j <= 1 -> Sgr_spec.B 8 W H xdec ydec cdef curr row set 0 (y + i) (x + j) = (255 * (25 * c) * 164 + 2048) / 4096).
    { intros a b Ha Hb. rewrite flat_B by assumption. unfold Sgr_spec.oneByN, Sgr_spec.n. rewrite R. reflexivity. }
    pose proof (fun i j => flat_A set 0 i j Hr) as EA.
    assert (X : i mod 2 = 0 \/ i mod 2 = 1) by (pose proof (Z.mod_pos_bound i 2); lia). destruct X as [X|X].
    + unfold Sgr_spec.flt. cbv zeta. rewrite X. change (0 =? 0) with true. change (0 =? 1) with false. cbn [andb]. rewrite EC.
      rewrite !sum3. rewrite !EA, !EB by (vm_compute; discriminate). unfold Sgr_spec.weight. rewrite !Z.add_0_r, X.
      replace ((i + -1) mod 2) with 1 by (clear - X; dlia). replace ((i + 1) mod 2) with 1 by (clear - X; dlia). cbn [Z.eqb Pos.eqb].
      change (Sgr_spec.Round2 ?v (Sgr_spec.SGRPROJ_SGR_BITS + 5 - Sgr_spec.SGRPROJ_RST_BITS)) with ((v + 256) / 512). clear - Hc. repeat split; intros; dlia.
    + unfold Sgr_spec.flt. cbv zeta. rewrite X. change (0 =? 0) with true. change (1 =? 1) with true. cbn [andb]. rewrite EC.
      rewrite !sum3. rewrite !EA, !EB by (vm_compute; discriminate). unfold Sgr_spec.weight. rewrite !Z.add_0_r, X.
      replace ((i + -1) mod 2) with 0 by (clear - X; dlia). replace ((i + 1) mod 2) with 0 by (clear - X; dlia). cbn [Z.eqb Pos.eqb].
      change (Sgr_spec.Round2 ?v (Sgr_spec.SGRPROJ_SGR_BITS + 4 - Sgr_spec.SGRPROJ_RST_BITS)) with ((v + 128) / 256). clear - Hc. repeat split; intros; dlia.
  - assert (EB : forall i j, Z.abs i <= 1 -> Z.abs j <= 1 -> Sgr_spec.B 8 W H xdec ydec cdef curr row set 1 (y + i) (x + j) = (255 * (9 * c) * 455 + 2048) / 4096).
    { intros a b Ha Hb. rewrite flat_B by assumption. unfold Sgr_spec.oneByN, Sgr_spec.n. rewrite R. reflexivity. }
    pose proof (fun i j => flat_A set 1 i j Hr) as EA.
    unfold Sgr_spec.flt. cbv zeta. change (1 =? 0) with false. cbn [andb]. rewrite EC.
    rewrite !sum3. rewrite !EA, !EB by (vm_compute; discriminate). unfold Sgr_spec.weight. cbn [Z.eqb orb].
    change (Sgr_spec.Round2 ?v (Sgr_spec.SGRPROJ_SGR_BITS + 5 - Sgr_spec.SGRPROJ_RST_BITS)) with ((v + 256) / 512). clear - Hc. repeat split; intros; dlia.
Qed.
Lemma flat_self set xqd : (-96 <= xqd 0 <= 31) -> (-32 <= xqd 1 <= 95) -> 0 <= set < 16 ->
  Sgr_spec.self_guided 8 W H xdec ydec cdef curr row set xqd y x = c.
Proof.
  intros H0 H1 Hs. unfold Sgr_spec.self_guided. cbv zeta.
  assert (EC : cdef y x = c) by (apply Flat; [exact Hy|exact Hx| |]; rewrite Z.sub_diag; vm_compute; discriminate).
  rewrite EC. destruct (params_table set Hs) as [T0 T1].
  set (i := y - _). change (2 ^ Sgr_spec.SGRPROJ_RST_BITS) with 16. change (2 ^ Sgr_spec.SGRPROJ_PRJ_BITS) with 128.
  set (f0 := if negb (Sgr_spec.r set 0 =? 0) then _ else c * 16). set (f1 := if negb (Sgr_spec.r set 1 =? 0) then _ else c * 16).
  assert (B0 : 16 * c <= f0 <= 16 * c + 4).
  { unfold f0. destruct T0 as [[_ R]|(_ & R & _)]; rewrite R; cbn [negb Z.eqb]; [lia|].
    destruct (flat_flt set 0 i (or_introl (conj eq_refl R))) as (A & _ & A2). specialize (A2 eq_refl). lia. }
  assert (B1 : 16 * c - 1 <= f1 <= 16 * c).
  { unfold f1. destruct T1 as [[_ R]|(_ & R & _)]; rewrite R; cbn [negb Z.eqb Pos.eqb]; [lia|].
    destruct (flat_flt set 1 i (or_intror (conj eq_refl R))) as (A & A1 & _). specialize (A1 eq_refl). lia. }
  clearbody f0 f1. change (Sgr_spec.Round2 ?v (Sgr_spec.SGRPROJ_RST_BITS + Sgr_spec.SGRPROJ_PRJ_BITS)) with ((v + 1024) / 2048).
  set (w0 := xqd 0) in *. set (w1 := xqd 1) in *. clearbody w0 w1.
  assert (E : (w1 * (c * 16) + w0 * f0 + (128 - w0 - w1) * f1 + 1024) / 2048 = c).
  { symmetry. apply (Z.div_unique _ _ _ (w0 * (f0 - 16 * c) + (128 - w0 - w1) * (f1 - 16 * c) + 1024)); [left|ring].
    set (d0 := f0 - 16 * c). set (d1 := 16 * c - f1). assert (0 <= d0 <= 4) by (unfold d0; lia). assert (0 <= d1 <= 1) by (unfold d1; lia).
    replace (f1 - 16 * c) with (- d1) by (unfold d1; ring). clearbody d0 d1. clear - H0 H1 H2 H3. nia. }
  rewrite E. unfold Sgr_spec.Clip3. change (2 ^ 8 - 1) with 255. destruct (Z.ltb_spec c 0); [lia|]. destruct (Z.ltb_spec 255 c); [lia|reflexivity].
Qed.
End Flat.

(** At 8 bits a sample with only equal samples up to three rows and columns away keeps its
    value, whatever the filters (weights within the range of the syntax). *)
Theorem C41_restoration_flat W H xdec ydec rp cdef curr out y x c :
  fgeom 8 W H xdec ydec rp cdef curr ->
  (forall r c, 0 <= r < r_rows rp -> 0 <= c < r_cols rp -> valid (r_units rp r c)) ->
  (forall r c set x0 x1, r_units rp r c = FSgrproj set x0 x1 -> -96 <= x0 <= 31 /\ -32 <= x1 <= 95) ->
  lrf_filter_plane 8 true W H xdec ydec rp cdef curr = Some out ->
  0 <= y < Sgr_spec.Round2 H ydec -> 0 <= x < Sgr_spec.Round2 W xdec ->
  (forall y' x', 0 <= y' < Sgr_spec.Round2 H ydec -> 0 <= x' < Sgr_spec.Round2 W xdec ->
     Z.abs (y' - y) <= 3 -> Z.abs (x' - x) <= 3 -> cdef y' x' = c /\ curr y' x' = c) ->
  out y x = c.
Proof.
  intros F V X E Hy Hx Fl. destruct (plane_is_spec _ _ _ _ _ _ _ _ F V) as (o & E' & R). rewrite E in E'. injection E' as <-.
  rewrite (R y x Hy Hx). unfold Sgr_spec.LrFrame. cbv zeta. rewrite (proj1 (unit_spec _ _ _ _ _ _ _ _ F V y x Hy Hx)).
  assert (EC : cdef y x = c) by (apply Fl; [exact Hy|exact Hx| |]; rewrite Z.sub_diag; vm_compute; discriminate).
  pose proof (f_cdef _ _ _ _ _ _ _ _ F y x Hy Hx) as B. rewrite EC in B. change (2 ^ 8 - 1) with 255 in B.
  pose proof (unit_valid _ _ _ _ _ _ _ _ F V (stripe_of ydec y) (ucol (r_unit rp) (r_cols rp) x)
    (proj1 (stripe_max H ydec y (f_ydec _ _ _ _ _ _ _ _ F) (f_H _ _ _ _ _ _ _ _ F) Hy)) (proj2 (unit_spec _ _ _ _ _ _ _ _ F V y x Hy Hx))) as SV.
  destruct (unit_by_stripe rp (stripe_of ydec y) (ucol (r_unit rp) (r_cols rp) x)) as [|cf|set x0 x1] eqn:EU; cbn [conv sgr_valid] in *; [exact EC|contradiction|].
  destruct (X _ _ set x0 x1 EU) as [X0 X1].
  apply flat_self; try assumption; [|apply SV].
  destruct (row_facts ydec y (f_ydec _ _ _ _ _ _ _ _ F) (proj1 Hy)) as (S1 & _ & _).
  unfold Sgr_spec.StripeEndY, Sgr_spec.StripeStartY. rewrite S1. unfold stripe_of.
  destruct (f_ydec _ _ _ _ _ _ _ _ F) as [-> | ->]; [change (2 ^ 0) with 1|change (2 ^ 1) with 2]; clear; dlia.
Qed.
Print Assumptions C41_restoration_flat.

(** ** A concrete plane: 9 by 7 pixels, one unit, a ripple *)
Definition ex_cdef (y x : Z) : Z := 100 + 2 * ((x * x + 3 * y) mod 7).
Definition ex_curr (y x : Z) : Z := ex_cdef y x + (x + y) mod 3.
Definition ex_plane (f : filter) : rplane := new_plane true 0 0 64 9 7 (fun _ _ => f).
Lemma ex_geom bd f : bd_ok bd -> fgeom bd 9 7 0 0 (ex_plane f) ex_cdef ex_curr.
Proof.
  intros Hb. assert (255 <= 2 ^ bd - 1) by (destruct Hb as [->|[->| ->]]; vm_compute; discriminate).
  apply (new_plane_geom bd 9 7 true 0 0 64 (fun _ _ => f) ex_cdef ex_curr); [auto|exact Hb|lia|lia|auto| |].
  - intros y x Hy Hx. change (0 <= y < 7) in Hy. change (0 <= x < 9) in Hx. unfold ex_cdef. pose proof (Z.mod_pos_bound (x * x + 3 * y) 7). lia.
  - intros y x Hy Hx. change (0 <= y < 7) in Hy. change (0 <= x < 9) in Hx. unfold ex_curr, ex_cdef. pose proof (Z.mod_pos_bound (x + y) 3). pose proof (Z.mod_pos_bound (x * x + 3 * y) 7). lia.
Qed.
Definition at2 (o : option (Z -> Z -> Z)) (y x : Z) : option Z := match o with Some f => Some (f y x) | None => None end.
Example C55_example :
  at2 (lrf_filter_plane 8 true 9 7 0 0 (ex_plane (FSgrproj 3 (-32) 31)) ex_cdef ex_curr) 4 3 = Some 101 /\ ex_cdef 4 3 = 100 /\
  spec_plane 8 9 7 0 0 (ex_plane (FSgrproj 3 (-32) 31)) ex_cdef ex_curr 4 3 = 101.
Proof. vm_compute. auto. Qed.

(** ** When CDEF is off the encoder skips the filter that it has signalled *)
(** The search for filters runs without CDEF too, and its choice is coded; the decoder
    applies it to its reconstruction, the encoder leaves its own as it was. *)
Theorem C55_without_cdef_refuted :
  exists rp cdef, fgeom 8 9 7 0 0 rp cdef cdef /\ (forall r c, valid (r_units rp r c)) /\
    lrf_filter_plane 8 false 9 7 0 0 rp cdef cdef = Some cdef /\
    exists y x, 0 <= y < 7 /\ 0 <= x < 9 /\ cdef y x <> spec_plane 8 9 7 0 0 rp cdef cdef y x.
Proof.
  exists (ex_plane (FSgrproj 3 (-32) 31)), ex_cdef. split; [|split; [|split]].
  - pose proof (ex_geom 8 (FSgrproj 3 (-32) 31) (or_introl eq_refl)) as F. destruct F. constructor; assumption.
  - intros. split; [lia|]. intros X. vm_compute in X. discriminate.
  - reflexivity.
  - exists 4, 3. split; [lia|]. split; [lia|]. vm_compute. discriminate.
Qed.
Print Assumptions C55_without_cdef_refuted.
(* whatever the units, without CDEF a plane with no Wiener unit is left as it was *)
Theorem C55_without_cdef bd W H xdec ydec rp cdef curr :
  fgeom bd W H xdec ydec rp cdef curr ->
  (forall r c, 0 <= r < r_rows rp -> 0 <= c < r_cols rp -> valid (r_units rp r c)) ->
  lrf_filter_plane bd false W H xdec ydec rp cdef curr = Some cdef.
Proof.
  intros F V. unfold lrf_filter_plane. cbv zeta. rewrite !round2_shift by (pose proof (f_xdec _ _ _ _ _ _ _ _ F); pose proof (f_ydec _ _ _ _ _ _ _ _ F); lia).
  set (st0 := ((fun _ : Z => 0, fun _ : Z => 0), cdef)).
  assert (N : 0 <= (H + 7) / 64) by (pose proof (f_H _ _ _ _ _ _ _ _ F); apply Z.div_pos; lia).
  assert (Cc : 1 <= r_cols rp) by (rewrite (f_cols _ _ _ _ _ _ _ _ F); unfold Sgr_spec.count_units_in_frame; lia).
  match goal with |- bind (ofor 0 ?n ?f st0) _ = _ => destruct (ofor_ind (fun _ st => st = st0) 0 n f st0) as (s & E & ->) end;
    [lia|reflexivity| |rewrite E; reflexivity].
  intros si s Hs ->. apply (ofor_ind (fun _ st => st = st0)); [lia|reflexivity|]. intros rux s Hr ->. exists st0. split; [|reflexivity].
  pose proof (unit_geom _ _ _ _ _ _ _ _ F V si rux ltac:(lia) Hr) as G.
  unfold st0, lrf_unit. cbv zeta.
  destruct (stripe_geom H ydec si (f_ydec _ _ _ _ _ _ _ _ F) (f_H _ _ _ _ _ _ _ _ F) ltac:(lia)) as (_ & _ & A3 & _ & _ & A6).
  destruct ((0 <? si) && _) eqn:E1.
  { exfalso. apply andb_prop in E1. destruct E1 as [E1 E2]. apply Z.ltb_lt in E1, E2. rewrite <- (A6 E1) in E2. clear - E2 A3. lia. }
  destruct (Z.ltb_spec (Sgr_spec.Round2 W xdec) (rux * r_unit rp)) as [E2|E2]; [exfalso; pose proof (g_cw _ _ _ _ _ _ _ _ _ _ _ G); pose proof (g_w _ _ _ _ _ _ _ _ _ _ _ G); clear - E2 H0 H1; lia|].
  pose proof (unit_valid _ _ _ _ _ _ _ _ F V si rux ltac:(lia) Hr) as SV. destruct (unit_by_stripe rp si rux); [reflexivity|contradiction|reflexivity].
Qed.
Print Assumptions C55_without_cdef.

(** ** The Wiener filter, which no search chooses at present, reads the wrong frame above the
    first stripe (and below the last): the rows there repeat the first row of the deblocked
    frame, where the specification repeats the first row after CDEF *)
Definition ex_wiener (pass i : Z) : Z := idx [5; -23; 20] i.
Theorem C55_wiener_refuted :
  exists rp cdef curr, fgeom 8 9 7 0 0 rp cdef curr /\
    exists y x, 0 <= y < 7 /\ 0 <= x < 9 /\
    at2 (lrf_filter_plane 8 true 9 7 0 0 rp cdef curr) y x <> Some (spec_plane 8 9 7 0 0 rp cdef curr y x).
Proof.
  exists (ex_plane (FWiener ex_wiener)), ex_cdef, (fun _ _ => 0). split.
  - pose proof (ex_geom 8 (FWiener ex_wiener) (or_introl eq_refl)) as F. destruct F. constructor; try assumption.
    intros. vm_compute. split; discriminate.
  - exists 0, 4. split; [lia|]. split; [lia|]. vm_compute. discriminate.
Qed.
Print Assumptions C55_wiener_refuted.

(** ** Flat areas at more than 8 bits: the filter of AV1 itself changes them *)
Theorem C41_restoration_flat_refuted :
  exists rp, fgeom 10 9 7 0 0 rp (fun _ _ => 1000) (fun _ _ => 1000) /\ (forall r c, valid (r_units rp r c)) /\
    at2 (lrf_filter_plane 10 true 9 7 0 0 rp (fun _ _ => 1000) (fun _ _ => 1000)) 3 3 = Some 999 /\
    spec_plane 10 9 7 0 0 rp (fun _ _ => 1000) (fun _ _ => 1000) 3 3 = 999.
Proof.
  exists (ex_plane (FSgrproj 3 (-96) 31)). split; [|split; [|split]].
  - pose proof (ex_geom 10 (FSgrproj 3 (-96) 31) (or_intror (or_introl eq_refl))) as F. destruct F. constructor; try assumption; intros; vm_compute; split; discriminate.
  - intros. split; [lia|]. intros X. vm_compute in X. discriminate.
  - vm_compute. reflexivity.
  - vm_compute. reflexivity.
Qed.
Print Assumptions C41_restoration_flat_refuted.
