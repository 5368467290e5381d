(** All stripes and units of a plane: loop restoration equals the specification's. *)
From Verif Require Import Base Sgr_model Sgr_box Sgr_kernel Sgr_stripe.
From Verif Require Sgr_spec.
Local Open Scope Z_scope.

(** the filter of a unit, as the specification describes it *)
Definition conv (f : filter) : Sgr_spec.unit_params :=
  match f with
  | FNone => Sgr_spec.RESTORE_NONE
  | FWiener c => Sgr_spec.RESTORE_WIENER c
  | FSgrproj set x0 x1 => Sgr_spec.RESTORE_SGRPROJ set (xqd x0 x1)
  end.
(** what a decoder can read for a self guided unit: w0 is zero when the first pass is off *)
Definition sgr_valid (f : filter) : Prop :=
  match f with FSgrproj set x0 x1 => 0 <= set < 16 /\ (params_s set 0 = 0 -> x0 = 0) | FNone => True | FWiener _ => False end.

Record fgeom (bd W H xdec ydec : Z) (rp : rplane) (cdef curr : Z -> Z -> Z) : Prop := {
  f_bd : bd_ok bd; f_xdec : xdec = 0 \/ xdec = 1; f_ydec : ydec = 0 \/ ydec = 1;
  f_W : 1 <= W; f_H : 1 <= H;
  f_sh : r_stripe_height rp = 64 / 2 ^ ydec;
  f_unit : exists t, 1 <= t /\ r_unit rp = r_stripe_height rp * t; f_max : r_unit rp <= 256;
  f_cols : r_cols rp = Sgr_spec.count_units_in_frame (r_unit rp) (Sgr_spec.Round2 W xdec);
  f_rows : r_rows rp = Sgr_spec.count_units_in_frame (r_unit rp) (Sgr_spec.Round2 H ydec);
  f_cdef : forall y x, 0 <= y < Sgr_spec.Round2 H ydec -> 0 <= x < Sgr_spec.Round2 W xdec -> 0 <= cdef y x <= 2 ^ bd - 1;
  f_curr : forall y x, 0 <= y < Sgr_spec.Round2 H ydec -> 0 <= x < Sgr_spec.Round2 W xdec -> 0 <= curr y x <= 2 ^ bd - 1 }.

Lemma round2_01 W d : d = 0 \/ d = 1 -> Sgr_spec.Round2 W d = (if d =? 0 then W else (W + 1) / 2).
Proof. intros [-> | ->]; reflexivity. Qed.

(** ** Stripes *)
Definition stripe_start (ydec si : Z) : Z := if si =? 0 then 0 else Z.shiftr (si * 64 - 8) ydec.
Definition stripe_size (ydec ch si : Z) : Z := if si =? 0 then Z.shiftr (64 - 8) ydec else Z.min (Z.shiftr 64 ydec) (ch - Z.shiftr (si * 64 - 8) ydec).
Definition stripe_of (ydec y : Z) : Z := (y * 2 ^ ydec + 8) / 64.
Lemma shiftr_01 a d : d = 0 \/ d = 1 -> Z.shiftr a d = (if d =? 0 then a else a / 2).
Proof. intros [-> | ->]; [reflexivity|]. rewrite Z.shiftr_div_pow2 by lia. reflexivity. Qed.

Lemma stripe_geom H ydec si : ydec = 0 \/ ydec = 1 -> 1 <= H -> 0 <= si <= (H + 7) / 64 ->
  let ch := Sgr_spec.Round2 H ydec in let row0 := 16 * si - 2 in
  let S := Sgr_spec.StripeStartY ydec row0 in let E := Sgr_spec.StripeEndY ydec row0 in
  let y0 := stripe_start ydec si in let h := stripe_size ydec ch si in
  ((y0 = 0 /\ S <= 0 /\ y0 + h = E + 1 /\ h mod 2 = 0) \/ (y0 = S /\ 2 <= y0 /\ y0 + h = E + 1 /\ h mod 2 = 0) \/
        (y0 = S /\ 2 <= y0 /\ y0 + h = ch /\ ch - 1 <= E)) /\
  1 <= h <= 64 /\ 0 <= y0 < ch /\ y0 mod 2 = 0 /\ Sgr_spec.StripeNum row0 = si /\ (0 < si -> y0 = Z.shiftr (si * 64 - 8) ydec).
Proof.
  intros Hd HH Hs. cbv zeta. unfold Sgr_spec.StripeEndY, Sgr_spec.StripeStartY, Sgr_spec.StripeNum, Sgr_spec.MI_SIZE, stripe_start, stripe_size.
  replace (((16 * si - 2) * 4 + 8) / 64) with si by dlia. rewrite round2_01 by exact Hd. rewrite !shiftr_01 by exact Hd.
  destruct Hd as [-> | ->].
  - change (0 =? 0) with true. cbv iota. change (2 ^ 0) with 1. rewrite !Z.div_1_r. destruct (Z.eqb_spec si 0) as [->|N].
    + change (64 - 8) with 56. clear - HH. repeat split; try lia; try (left; repeat split; lia).
    + assert (64 * si - 8 <= H - 1) by (clear - Hs; dlia). split; [|repeat split; try lia; clear; dlia].
      destruct (Z.le_gt_cases 64 (H - (si * 64 - 8))); [right; left|right; right]; repeat split; try lia; try (rewrite Z.min_l by lia; reflexivity).
  - change (1 =? 0) with false. cbv iota. change (2 ^ 1) with 2. change (64 / 2) with 32. change ((64 - 8) / 2) with 28.
    replace ((-8 + si * 64) / 2) with (32 * si - 4) by dlia. replace ((si * 64 - 8) / 2) with (32 * si - 4) by dlia.
    destruct (Z.eqb_spec si 0) as [->|N].
    + clear - HH. repeat split; try dlia; try (left; repeat split; lia).
    + assert (32 * si - 4 < (H + 1) / 2) by (clear - Hs; dlia). split; [|repeat split; try lia; clear; dlia].
      destruct (Z.le_gt_cases 32 ((H + 1) / 2 - (32 * si - 4))); [right; left|right; right]; repeat split; try lia; try (rewrite Z.min_l by lia; reflexivity).
Qed.
Lemma stripe_rows H ydec si yy : ydec = 0 \/ ydec = 1 -> 1 <= H -> 0 <= si <= (H + 7) / 64 -> 0 <= yy < Sgr_spec.Round2 H ydec ->
  (stripe_of ydec yy = si <-> stripe_start ydec si <= yy < stripe_start ydec si + stripe_size ydec (Sgr_spec.Round2 H ydec) si).
Proof.
  intros Hd HH Hs. unfold stripe_of, stripe_start, stripe_size. rewrite round2_01 by exact Hd. rewrite !shiftr_01 by exact Hd.
  destruct Hd as [-> | ->].
  - change (0 =? 0) with true. cbv iota. change (2 ^ 0) with 1. change (64 - 8) with 56. intros Hy. destruct (Z.eqb_spec si 0) as [->|N].
    + clear - Hy. split; intros; dlia.
    + clear Hs HH. split; intros; [|dlia]. assert (64 * si - 8 <= yy < 64 * si + 56) by dlia. lia.
  - change (1 =? 0) with false. cbv iota. change (2 ^ 1) with 2. change (64 / 2) with 32. change ((64 - 8) / 2) with 28.
    replace ((si * 64 - 8) / 2) with (32 * si - 4) by dlia. intros Hy. set (ch := (H + 1) / 2) in *. clearbody ch. destruct (Z.eqb_spec si 0) as [->|N].
    + clear - Hy. split; intros; dlia.
    + clear Hs HH. split; intros; [|dlia]. assert (32 * si - 4 <= yy < 32 * si + 28) by dlia. lia.
Qed.
Lemma row_facts ydec yy : ydec = 0 \/ ydec = 1 -> 0 <= yy ->
  Sgr_spec.StripeNum (Sgr_spec.row_of ydec yy) = stripe_of ydec yy /\ rowi ydec yy mod 2 = yy mod 2 /\
  ((Sgr_spec.row_of ydec yy * 4 + 8) / 2 ^ ydec) / (64 / 2 ^ ydec) = stripe_of ydec yy.
Proof.
  intros Hd Hy. unfold Sgr_spec.StripeNum, rowi, Sgr_spec.row_of, stripe_of, Sgr_spec.MI_SIZE. destruct Hd as [-> | ->].
  - change (2 ^ 0) with 1. rewrite !Z.mul_1_r, !Z.div_1_r. clear. repeat split; dlia.
  - change (2 ^ 1) with 2. change (64 / 2) with 32. clear. repeat split; dlia.
Qed.
Lemma stripe_max H ydec yy : ydec = 0 \/ ydec = 1 -> 1 <= H -> 0 <= yy < Sgr_spec.Round2 H ydec -> 0 <= stripe_of ydec yy <= (H + 7) / 64.
Proof.
  intros Hd HH. unfold stripe_of. rewrite round2_01 by exact Hd. destruct Hd as [-> | ->].
  - change (0 =? 0) with true. cbv iota. change (2 ^ 0) with 1. intros. dlia.
  - change (1 =? 0) with false. cbv iota. change (2 ^ 1) with 2. intros. dlia.
Qed.

(** ** Units *)
Definition ucol (us cols x : Z) : Z := Z.min (cols - 1) (x / us).
Lemma unit_cols cw us rux : 32 <= us <= 256 -> us mod 2 = 0 -> 1 <= cw -> let cols := Sgr_spec.count_units_in_frame us cw in
  0 <= rux < cols -> let w := if rux =? cols - 1 then cw - rux * us else us in
  (rux * us = 0 \/ 4 <= rux * us) /\ 1 <= w <= 384 /\ rux * us + w <= cw /\
  (forall x, 0 <= x < cw -> (ucol us cols x = rux <-> rux * us <= x < rux * us + w)).
Proof.
  intros Hu He Hc. cbv zeta. unfold Sgr_spec.count_units_in_frame. set (q := (cw + us / 2) / us). set (cols := Z.max q 1). intros Hr.
  assert (Q : us * q <= cw + us / 2 < us * q + us) by (unfold q; pose proof (Z.mul_div_le (cw + us / 2) us ltac:(lia)); pose proof (Z.mul_succ_div_gt (cw + us / 2) us ltac:(lia)); lia).
  assert (H2 : us = 2 * (us / 2)) by dlia. set (u2 := us / 2) in *. clearbody q u2.
  assert (Q0 : 0 <= q) by nia.
  assert (M : (rux + 1) * us <= cols * us) by nia.
  assert (C1 : 1 <= cols) by (unfold cols; lia).
  assert (C2 : (cols - 1) * us < cw) by (unfold cols; destruct (Z.max_spec q 1) as [[? ->]|[? ->]]; nia).
  assert (C3 : cw < (cols - 1) * us + us + u2) by (unfold cols; destruct (Z.max_spec q 1) as [[? ->]|[? ->]]; nia).
  assert (C4 : 2 <= cols -> (cols - 1) * us + u2 <= cw) by (unfold cols; intros; destruct (Z.max_spec q 1) as [[? HH]|[? HH]]; rewrite HH in *; nia).
  clearbody cols. split; [destruct (Z.eq_dec rux 0); [left; lia|right; nia]|].
  destruct (Z.eqb_spec rux (cols - 1)) as [->|N].
  - split; [lia|]. split; [lia|]. intros x Hx. unfold ucol. split; intros Hi.
    + split; [|lia]. assert (cols - 1 <= x / us) by lia. pose proof (Z.mul_div_le x us ltac:(lia)). nia.
    + assert (cols - 1 <= x / us) by (apply Z.div_le_lower_bound; lia). lia.
  - split; [lia|]. assert (L : (rux + 1) * us <= (cols - 1) * us) by (apply Z.mul_le_mono_nonneg_r; lia). split; [lia|]. intros x Hx. unfold ucol. split; intros Hi.
    + assert (Q1 : x / us = rux) by lia. pose proof (Z.mul_div_le x us ltac:(lia)) as T1. pose proof (Z.mul_succ_div_gt x us ltac:(lia)) as T2. rewrite Q1 in T1, T2. clear - T1 T2. lia.
    + assert (x / us = rux) by (symmetry; apply (Z.div_unique _ _ _ (x - rux * us)); [left|]; lia). lia.
Qed.
Lemma spec_col xdec us x : xdec = 0 \/ xdec = 1 -> 0 <= x -> 0 < us -> us mod 4 = 0 ->
  (Sgr_spec.col_of xdec x * 4) / 2 ^ xdec / us = x / us.
Proof.
  intros Hd Hx Hu Hm. unfold Sgr_spec.col_of, Sgr_spec.MI_SIZE.
  assert (E : us = 4 * (us / 4)) by dlia. set (t := us / 4) in *. clearbody t.
  pose proof (Z.mul_div_le x us Hu) as A. pose proof (Z.mul_succ_div_gt x us Hu) as B. set (q := x / us) in *. clearbody q.
  set (v := (x * 2 ^ xdec / 4 * 4) / 2 ^ xdec). assert (V : x / 4 * 4 <= v <= x).
  { unfold v. destruct Hd as [-> | ->]; [change (2 ^ 0) with 1|change (2 ^ 1) with 2]; clear; dlia. }
  clearbody v. symmetry. apply (Z.div_unique _ _ _ (v - us * q)); [left|lia]. subst us. split; [|lia].
  assert (t * q <= x / 4) by (apply Z.div_le_lower_bound; lia). lia.
Qed.

(** ** One unit of one stripe *)
Section Frame.
Variables (bd W H xdec ydec : Z) (rp : rplane) (cdef curr : Z -> Z -> Z).
Hypothesis F : fgeom bd W H xdec ydec rp cdef curr.
Hypothesis V : forall r c, 0 <= r < r_rows rp -> 0 <= c < r_cols rp -> sgr_valid (r_units rp r c).
Notation cw := (Sgr_spec.Round2 W xdec).
Notation ch := (Sgr_spec.Round2 H ydec).
Notation us := (r_unit rp).
Notation LrFrame := (Sgr_spec.LrFrame bd W H xdec ydec cdef curr us (fun r c => conv (r_units rp r c))).

Lemma us_facts : 32 <= us <= 256 /\ us mod 4 = 0 /\ us mod 2 = 0.
Proof.
  destruct (f_unit _ _ _ _ _ _ _ _ F) as (t & Ht & E). pose proof (f_max _ _ _ _ _ _ _ _ F) as M. rewrite (f_sh _ _ _ _ _ _ _ _ F) in E.
  destruct (f_ydec _ _ _ _ _ _ _ _ F) as [D|D]; rewrite D in E; [change (64 / 2 ^ 0) with 64 in E|change (64 / 2 ^ 1) with 32 in E]; clear - Ht E M; dlia.
Qed.
Lemma cw_pos : 1 <= cw /\ 1 <= ch.
Proof.
  rewrite !round2_01 by apply F. pose proof (f_W _ _ _ _ _ _ _ _ F). pose proof (f_H _ _ _ _ _ _ _ _ F).
  clear - H0 H1. destruct (xdec =? 0); destruct (ydec =? 0); dlia.
Qed.

(* which unit a sample belongs to *)
Lemma unit_spec y x : 0 <= y < ch -> 0 <= x < cw ->
  r_units rp (Sgr_spec.unitRow H ydec us (Sgr_spec.row_of ydec y)) (Sgr_spec.unitCol W xdec us (Sgr_spec.col_of xdec x)) =
  unit_by_stripe rp (stripe_of ydec y) (ucol us (r_cols rp) x) /\ 0 <= ucol us (r_cols rp) x < r_cols rp.
Proof.
  intros Hy Hx. destruct us_facts as (U1 & U2 & _). unfold unit_by_stripe, Sgr_spec.unitRow, Sgr_spec.unitCol.
  rewrite <- (f_cols _ _ _ _ _ _ _ _ F), <- (f_rows _ _ _ _ _ _ _ _ F). change Sgr_spec.MI_SIZE with 4.
  rewrite (spec_col xdec us x); [|apply F|lia|lia|exact U2]. fold (ucol us (r_cols rp) x).
  assert (Cc : 1 <= r_cols rp) by (rewrite (f_cols _ _ _ _ _ _ _ _ F); unfold Sgr_spec.count_units_in_frame; lia).
  assert (0 <= x / us) by (apply Z.div_pos; lia).
  assert (B : 0 <= ucol us (r_cols rp) x < r_cols rp) by (unfold ucol; lia). split; [|exact B].
  f_equal; [|lia]. rewrite Z.min_comm. f_equal.
  destruct (f_unit _ _ _ _ _ _ _ _ F) as (t & Ht & E). rewrite E.
  assert (S0 : 0 < r_stripe_height rp) by nia.
  rewrite <- !Z.div_div by lia. rewrite Z.div_mul by lia. f_equal. rewrite (f_sh _ _ _ _ _ _ _ _ F).
  apply row_facts; [apply F|lia].
Qed.

Lemma unit_geom si rux : 0 <= si <= (H + 7) / 64 -> 0 <= rux < r_cols rp ->
  sgeom bd ch cw (Sgr_spec.StripeStartY ydec (16 * si - 2)) (Sgr_spec.StripeEndY ydec (16 * si - 2))
    (stripe_start ydec si) (stripe_size ydec ch si) (rux * us) (if rux =? r_cols rp - 1 then cw - rux * us else us) cdef curr.
Proof.
  intros Hs Hr. destruct us_facts as (U1 & U2 & U3). destruct cw_pos as [C1 C2].
  destruct (stripe_geom H ydec si (f_ydec _ _ _ _ _ _ _ _ F) (f_H _ _ _ _ _ _ _ _ F) Hs) as (A1 & A2 & A3 & A4 & _).
  rewrite (f_cols _ _ _ _ _ _ _ _ F) in *. destruct (unit_cols cw us rux U1 U3 C1 Hr) as (B1 & B2 & B3 & _).
  constructor; [apply F|exact A1|exact A2|exact A3|exact A4|exact B1|exact B2|exact B3|apply F|apply F].
Qed.

Lemma setup_ok w h x0 y0 S E buf : sgeom bd ch cw S E y0 h x0 w cdef curr ->
  exists m, setup_integral_image STRIPE_IMAGE_SIZE STRIPE_IMAGE_STRIDE (cw - x0) (ch - y0) w h cdef curr x0 y0 buf = Some m /\
  let src := source cdef curr x0 y0 (cw - x0) (ch - y0) w h in
  image src 392 (w + 7) (h + Z.land h 1 + 6) (fst m) /\ image (fun i j => src i j * src i j) 392 (w + 7) (h + Z.land h 1 + 6) (snd m).
Proof.
  intros G. unfold setup_integral_image. cbv zeta. pose proof (g_w _ _ _ _ _ _ _ _ _ _ _ G). pose proof (g_cw _ _ _ _ _ _ _ _ _ _ _ G). pose proof (g_h _ _ _ _ _ _ _ _ _ _ _ G).
  assert (L : 0 <= Z.land h 1 /\ h + Z.land h 1 <= 64) by (rewrite land1; clear - H2; dlia). set (h' := h + Z.land h 1) in *.
  destruct (Z.leb_spec w (cw - x0)); [|lia]. change STRIPE_IMAGE_STRIDE with 392. change STRIPE_IMAGE_SIZE with 28224.
  destruct (Z.leb_spec ((4 + h' + 2 - 1) * 392) 28224); [|lia]. cbn [andb]. eexists. split; [reflexivity|].
  unfold for_. replace (Z.to_nat (4 + h' + 2 - 0)) with (Z.to_nat (h' + 6)) by lia.
  destruct (rows_loop (source cdef curr x0 y0 (cw - x0) (ch - y0) w h) 392 (w + 7)
    (fun k => Z.min (4 + w + 3) (if k =? 0 then 28224 else Z.min 392 (28224 - k * 392))) buf (Z.to_nat (h' + 6))) as [I1 I2].
  - lia.
  - intros k Hk. destruct (k =? 0); lia.
  - rewrite Z2Nat.id in I1, I2 by lia. split; [exact I1|exact I2].
Qed.

Lemma unit_valid si rux : 0 <= si -> 0 <= rux < r_cols rp -> sgr_valid (unit_by_stripe rp si rux).
Proof.
  intros Hs Hr. unfold unit_by_stripe.
  assert (R : 1 <= r_rows rp) by (rewrite (f_rows _ _ _ _ _ _ _ _ F); unfold Sgr_spec.count_units_in_frame; clear; lia).
  assert (Q : 0 <= si * r_stripe_height rp / us).
  { destruct us_facts as (U1 & _). apply Z.div_pos; [|lia]. destruct (f_unit _ _ _ _ _ _ _ _ F) as (t & Ht & E). clear - Hs U1 Ht E. apply Z.mul_nonneg_nonneg; nia. }
  apply V; clear - Hr R Q; lia.
Qed.
Lemma unit_ok si rux buf out : 0 <= si <= (H + 7) / 64 -> 0 <= rux < r_cols rp ->
  (forall y x, 0 <= y < ch -> 0 <= x < cw -> stripe_of ydec y = si -> ucol us (r_cols rp) x = rux -> out y x = cdef y x) ->
  exists buf' out', lrf_unit bd true ydec cw ch rp cdef curr si rux (buf, out) = Some (buf', out') /\
  forall y x, 0 <= y < ch -> 0 <= x < cw ->
    out' y x = if (stripe_of ydec y =? si) && (ucol us (r_cols rp) x =? rux) then LrFrame y x else out y x.
Proof.
  intros Hs Hr HO. pose proof (unit_geom si rux Hs Hr) as G.
  destruct us_facts as (U1 & U2 & U3). destruct cw_pos as [C1 C2].
  destruct (stripe_geom H ydec si (f_ydec _ _ _ _ _ _ _ _ F) (f_H _ _ _ _ _ _ _ _ F) Hs) as (A1 & A2 & A3 & A4 & A5 & A6).
  assert (UC : forall x, 0 <= x < cw -> (ucol us (r_cols rp) x = rux <-> rux * us <= x < rux * us + (if rux =? r_cols rp - 1 then cw - rux * us else us))).
  { rewrite (f_cols _ _ _ _ _ _ _ _ F) in *. apply (unit_cols cw us rux U1 U3 C1 Hr). }
  unfold lrf_unit. cbv zeta.
  destruct ((0 <? si) && (ch <? Z.shiftr (si * 64 - 8) ydec)) eqn:E1.
  { exfalso. apply andb_prop in E1. destruct E1 as [E1 E2]. apply Z.ltb_lt in E1, E2. rewrite <- (A6 E1) in E2. lia. }
  destruct (Z.ltb_spec cw (rux * us)) as [E2|E2]; [exfalso; pose proof (g_cw _ _ _ _ _ _ _ _ _ _ _ G); pose proof (g_w _ _ _ _ _ _ _ _ _ _ _ G); lia|].
  change (if si =? 0 then 0 else Z.shiftr (si * 64 - 8) ydec) with (stripe_start ydec si).
  change (if si =? 0 then Z.shiftr (64 - 8) ydec else Z.min (Z.shiftr 64 ydec) (ch - Z.shiftr (si * 64 - 8) ydec)) with (stripe_size ydec ch si).
  set (y0 := stripe_start ydec si) in *. set (h := stripe_size ydec ch si) in *. set (w := if rux =? r_cols rp - 1 then cw - rux * us else us) in *.
  assert (Hv : sgr_valid (unit_by_stripe rp si rux)).
  { apply unit_valid; [apply Hs|exact Hr]. }
  (* the specification at a sample of the unit *)
  assert (SP : forall y x, 0 <= y < ch -> 0 <= x < cw -> stripe_of ydec y = si -> ucol us (r_cols rp) x = rux ->
    LrFrame y x = match conv (unit_by_stripe rp si rux) with
      | Sgr_spec.RESTORE_NONE => cdef y x
      | Sgr_spec.RESTORE_WIENER c => Sgr_spec.wiener bd W H xdec ydec cdef curr (Sgr_spec.row_of ydec y) c y x
      | Sgr_spec.RESTORE_SGRPROJ set xq => Sgr_spec.self_guided bd W H xdec ydec cdef curr (Sgr_spec.row_of ydec y) set xq y x end).
  { intros y x Hy Hx Ey Ex. unfold Sgr_spec.LrFrame. cbv zeta. rewrite (proj1 (unit_spec y x Hy Hx)), Ey, Ex. reflexivity. }
  destruct (unit_by_stripe rp si rux) as [|c|set x0 x1] eqn:EU; cbn [sgr_valid conv] in *; [|contradiction|].
  - exists buf, out. split; [reflexivity|]. intros y x Hy Hx. destruct (Z.eqb_spec (stripe_of ydec y) si) as [Ey|Ey]; [|reflexivity].
    destruct (Z.eqb_spec (ucol us (r_cols rp) x) rux) as [Ex|Ex]; [|reflexivity]. cbn [andb]. rewrite (SP y x Hy Hx Ey Ex). apply HO; assumption.
  - cbn [negb]. destruct (setup_ok w h (rux * us) y0 _ _ buf G) as (m & EM & I1 & I2). rewrite EM. cbn [bind]. clear EM.
    destruct Hv as [Hset Hxq].
    destruct (stripe_ok bd W H xdec ydec cdef curr y0 h (rux * us) w (16 * si - 2) G m set I1 I2 x0 x1 Hset Hxq) with (out := out) as (out' & EO & RO).
    { intros yy Hyy Hc. assert (0 <= yy) by (clear - A3 Hyy; lia). destruct (row_facts ydec yy (f_ydec _ _ _ _ _ _ _ _ F) H0) as (R1 & R2 & _).
      split; [|rewrite R2; clear - A4; dlia]. rewrite R1, A5. apply (stripe_rows H ydec si yy); [apply F|apply F|exact Hs|split; [exact H0|exact Hc]|exact Hyy]. }
    change STRIPE_IMAGE_STRIDE with 392. rewrite EO. cbn [bind]. exists m, out'. split; [reflexivity|].
    intros y x Hy Hx. rewrite (RO y x ltac:(lia)).
    pose proof (stripe_rows H ydec si y (f_ydec _ _ _ _ _ _ _ _ F) (f_H _ _ _ _ _ _ _ _ F) Hs Hy) as SR. fold y0 h in SR. specialize (UC x Hx).
    assert (EB : rows_done y0 (rux * us) w h y x = (stripe_of ydec y =? si) && (ucol us (r_cols rp) x =? rux)).
    { unfold rows_done. destruct (Z.eqb_spec (stripe_of ydec y) si) as [Ey|Ey]; destruct (Z.eqb_spec (ucol us (r_cols rp) x) rux) as [Ex|Ex]; cbn [andb];
      destruct (Z.leb_spec y0 y); destruct (Z.ltb_spec y (y0 + h)); destruct (Z.leb_spec (rux * us) x); destruct (Z.ltb_spec x (rux * us + w)); cbn [andb]; try reflexivity; exfalso; clear - SR UC Ey Ex H0 H1 H2 H3; tauto || lia. }
    rewrite EB. destruct (Z.eqb_spec (stripe_of ydec y) si) as [Ey|Ey]; [|reflexivity].
    destruct (Z.eqb_spec (ucol us (r_cols rp) x) rux) as [Ex|Ex]; [|reflexivity]. cbn [andb]. rewrite (SP y x Hy Hx Ey Ex). reflexivity.
Qed.

Theorem plane_is_spec : exists out', lrf_filter_plane bd true W H xdec ydec rp cdef curr = Some out' /\
  forall y x, 0 <= y < ch -> 0 <= x < cw -> out' y x = LrFrame y x.
Proof.
  unfold lrf_filter_plane. cbv zeta. rewrite !round2_shift by (pose proof (f_xdec _ _ _ _ _ _ _ _ F); pose proof (f_ydec _ _ _ _ _ _ _ _ F); lia).
  pose proof (f_H _ _ _ _ _ _ _ _ F) as HH. assert (N : 0 <= (H + 7) / 64) by (apply Z.div_pos; lia).
  assert (Cc : 1 <= r_cols rp) by (rewrite (f_cols _ _ _ _ _ _ _ _ F); unfold Sgr_spec.count_units_in_frame; lia).
  destruct (ofor_ind (fun si (st : ((Z -> Z) * (Z -> Z)) * (Z -> Z -> Z)) => forall y x, 0 <= y < ch -> 0 <= x < cw ->
      snd st y x = if stripe_of ydec y <? si then LrFrame y x else cdef y x) 0 ((H + 7) / 64 + 1)
    (fun si => ofor 0 (r_cols rp) (fun rux => lrf_unit bd true ydec cw ch rp cdef curr si rux)) ((fun _ => 0, fun _ => 0), cdef)) as ([b o] & EO & RO).
  - lia.
  - intros y x Hy Hx. cbn [snd]. pose proof (stripe_max H ydec y (f_ydec _ _ _ _ _ _ _ _ F) HH Hy). destruct (Z.ltb_spec (stripe_of ydec y) 0); [lia|reflexivity].
  - intros si [b o] Hs RO. cbn [snd] in RO.
    destruct (ofor_ind (fun rux (st : ((Z -> Z) * (Z -> Z)) * (Z -> Z -> Z)) => forall y x, 0 <= y < ch -> 0 <= x < cw ->
      snd st y x = if (stripe_of ydec y <? si) || ((stripe_of ydec y =? si) && (ucol us (r_cols rp) x <? rux)) then LrFrame y x else cdef y x) 0 (r_cols rp)
      (fun rux => lrf_unit bd true ydec cw ch rp cdef curr si rux) (b, o)) as ([b' o'] & EO' & RO').
    + lia.
    + intros y x Hy Hx. cbn [snd]. rewrite (RO y x Hy Hx). destruct (unit_spec y x Hy Hx) as [_ B].
      destruct (Z.ltb_spec (ucol us (r_cols rp) x) 0); [lia|]. rewrite andb_false_r, orb_false_r. reflexivity.
    + intros rux [b1 o1] Hr R1. cbn [snd] in R1.
      destruct (unit_ok si rux b1 o1 ltac:(lia) Hr) as (b2 & o2 & E2 & R2).
      { intros y x Hy Hx Ey Ex. rewrite (R1 y x Hy Hx), Ey, Ex. rewrite !Z.ltb_irrefl, andb_false_r. reflexivity. }
      exists (b2, o2). split; [exact E2|]. intros y x Hy Hx. cbn [snd]. rewrite (R2 y x Hy Hx), (R1 y x Hy Hx).
      destruct (Z.ltb_spec (stripe_of ydec y) si); destruct (Z.eqb_spec (stripe_of ydec y) si);
      destruct (Z.eqb_spec (ucol us (r_cols rp) x) rux); destruct (Z.ltb_spec (ucol us (r_cols rp) x) rux); destruct (Z.ltb_spec (ucol us (r_cols rp) x) (rux + 1)); cbn [andb orb]; try reflexivity; lia.
    + exists (b', o'). split; [exact EO'|]. intros y x Hy Hx. rewrite (RO' y x Hy Hx). destruct (unit_spec y x Hy Hx) as [_ B].
      destruct (Z.ltb_spec (ucol us (r_cols rp) x) (r_cols rp)); [|lia]. rewrite andb_true_r.
      destruct (Z.ltb_spec (stripe_of ydec y) si); destruct (Z.eqb_spec (stripe_of ydec y) si); destruct (Z.ltb_spec (stripe_of ydec y) (si + 1)); cbn [orb]; try reflexivity; lia.
  - rewrite EO. cbn [bind snd] in *. exists o. split; [reflexivity|]. intros y x Hy Hx. rewrite (RO y x Hy Hx).
    pose proof (stripe_max H ydec y (f_ydec _ _ _ _ _ _ _ _ F) HH Hy). destruct (Z.ltb_spec (stripe_of ydec y) ((H + 7) / 64 + 1)); [reflexivity|lia].
Qed.
End Frame.
