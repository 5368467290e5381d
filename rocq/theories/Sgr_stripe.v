(** One stripe of one restoration unit: the self guided filter equals the specification's. *)
From Verif Require Import Base Sgr_model Sgr_box Sgr_kernel.
From Verif Require Sgr_spec.
Local Open Scope Z_scope.

(** ** Loops that may stop *)
Lemma ofor_ind {A} (P : Z -> A -> Prop) lo hi (f : Z -> A -> option A) s : lo <= hi -> P lo s ->
  (forall k s, lo <= k < hi -> P k s -> exists s', f k s = Some s' /\ P (k + 1) s') ->
  exists s', ofor lo hi f s = Some s' /\ P hi s'.
Proof.
  intros Hlh H0 Hs. unfold ofor, for_.
  assert (G : forall n, Z.of_nat n <= hi - lo -> exists s', loop (fun i o => do s <- o; f i s) lo n (Some s) = Some s' /\ P (lo + Z.of_nat n) s').
  { induction n as [|n IH]; intros Hn; [exists s; split; [reflexivity|]; rewrite Z.add_0_r; exact H0|].
    destruct IH as (s1 & E1 & P1); [lia|]. cbn [loop]. rewrite E1. cbn [bind].
    destruct (Hs (lo + Z.of_nat n) s1 ltac:(lia) P1) as (s2 & E2 & P2). exists s2. split; [exact E2|].
    replace (lo + Z.of_nat (S n)) with (lo + Z.of_nat n + 1) by lia. exact P2. }
  destruct (G (Z.to_nat (hi - lo)) ltac:(lia)) as (s' & E & P'). exists s'. split; [exact E|].
  replace (lo + Z.of_nat (Z.to_nat (hi - lo))) with hi in P' by lia. exact P'.
Qed.

(** ** Where the samples come from *)
Lemma pad_rows (F G : Z -> Z) y y0 se crop S E : 1 <= crop -> 0 <= y0 < crop -> y0 < se ->
  (y0 = 0 /\ S <= 0 /\ se = E + 1) \/ (y0 = S /\ 2 <= y0 /\ se = E + 1) \/ (y0 = S /\ 2 <= y0 /\ crop <= se /\ crop - 1 <= E) ->
  (let ly := clamp (clamp y 0 (crop - 1)) (y0 - 2) (se + 1) in if (y0 <=? ly) && (ly <? se) then F ly else G ly) =
  (let y' := Z.min (crop - 1) (Z.max 0 y) in
   if y' <? S then G (Z.max (S - 2) y') else if E <? y' then G (Z.min (E + 2) y') else F y').
Proof.
  intros Hc Hy Hse Hs. cbv zeta.
  assert (C : clamp y 0 (crop - 1) = Z.min (crop - 1) (Z.max 0 y)).
  { unfold clamp. destruct (Z.ltb_spec y 0); [lia|]. destruct (Z.ltb_spec (crop - 1) y); lia. }
  rewrite C. set (y' := Z.min (crop - 1) (Z.max 0 y)) in *. assert (0 <= y' < crop) by lia. clearbody y'. clear C.
  unfold clamp. destruct (Z.ltb_spec y' (y0 - 2)); [|destruct (Z.ltb_spec (se + 1) y')].
  - destruct (Z.leb_spec y0 (y0 - 2)); [lia|]. cbn [andb]. destruct (Z.ltb_spec y' S); [f_equal; lia|lia].
  - destruct (Z.ltb_spec (se + 1) se); [lia|]. rewrite andb_false_r. destruct (Z.ltb_spec y' S); [lia|]. destruct (Z.ltb_spec E y'); [f_equal; lia|lia].
  - destruct (Z.leb_spec y0 y'); destruct (Z.ltb_spec y' se); cbn [andb]; destruct (Z.ltb_spec y' S); destruct (Z.ltb_spec E y'); try lia; f_equal; lia.
Qed.
Lemma pad_cols x0 w cw c : (x0 = 0 \/ 4 <= x0) -> 1 <= w -> x0 + w <= cw -> 0 <= c < w + 7 ->
  let lu := if x0 =? 0 then 0 else 4 in
  x0 - lu + clamp ((if x0 =? 0 then -4 else 0) + c) 0 (lu + w + Z.min 3 (cw - x0 - w) - 1) = Z.max 0 (Z.min (cw - 1) (x0 - 4 + c)).
Proof.
  intros Hx Hw Hc Hi. cbv zeta. unfold clamp. destruct (Z.eqb_spec x0 0) as [->|N].
  - destruct (Z.ltb_spec (-4 + c) 0); [lia|]. destruct (Z.ltb_spec (0 + w + Z.min 3 (cw - 0 - w) - 1) (-4 + c)); lia.
  - destruct (Z.ltb_spec (0 + c) 0); [lia|]. destruct (Z.ltb_spec (4 + w + Z.min 3 (cw - x0 - w) - 1) (0 + c)); lia.
Qed.
Lemma land1 h : Z.land h 1 = h mod 2.
Proof. change 1 with (Z.ones 1). rewrite Z.land_ones by lia. reflexivity. Qed.

(** where a stripe of a unit is; S and E are the rows of the stripe in the specification *)
Record sgeom (bd ch cw S E y0 h x0 w : Z) (cdef curr : Z -> Z -> Z) : Prop := {
  g_bd : bd_ok bd;
  g_y : (y0 = 0 /\ S <= 0 /\ y0 + h = E + 1 /\ h mod 2 = 0) \/ (y0 = S /\ 2 <= y0 /\ y0 + h = E + 1 /\ h mod 2 = 0) \/
        (y0 = S /\ 2 <= y0 /\ y0 + h = ch /\ ch - 1 <= E);
  g_h : 1 <= h <= 64; g_ch : 0 <= y0 < ch; g_even : y0 mod 2 = 0;
  g_x : x0 = 0 \/ 4 <= x0; g_w : 1 <= w <= 384; g_cw : x0 + w <= cw;
  g_cdef : forall y x, 0 <= y < ch -> 0 <= x < cw -> 0 <= cdef y x <= 2 ^ bd - 1;
  g_curr : forall y x, 0 <= y < ch -> 0 <= x < cw -> 0 <= curr y x <= 2 ^ bd - 1 }.

Lemma params_table set : 0 <= set < 16 ->
  ((params_s set 0 = 0 /\ Sgr_spec.r set 0 = 0) \/ (0 < params_s set 0 <= 140 /\ Sgr_spec.r set 0 = 2 /\ Sgr_spec.s set 0 = params_s set 0)) /\
  ((params_s set 1 = 0 /\ Sgr_spec.r set 1 = 0) \/ (0 < params_s set 1 <= 3236 /\ Sgr_spec.r set 1 = 1 /\ Sgr_spec.s set 1 = params_s set 1)).
Proof.
  intros H. assert (D : set = 0 \/ set = 1 \/ set = 2 \/ set = 3 \/ set = 4 \/ set = 5 \/ set = 6 \/ set = 7 \/ set = 8 \/ set = 9 \/ set = 10 \/ set = 11 \/ set = 12 \/ set = 13 \/ set = 14 \/ set = 15) by lia.
  repeat (destruct D as [-> | D]; [clear; vm_compute; intuition congruence|]). subst set. clear. vm_compute. intuition congruence.
Qed.

Lemma sum3 f : Sgr_spec.sum f (-1) 3 = f (-1) + f 0 + f 1.
Proof. change (0 + f (-1) + f 0 + f 1 = f (-1) + f 0 + f 1). lia. Qed.

Section Stripe.
Variables (bd W H xdec ydec : Z) (cdef curr : Z -> Z -> Z) (y0 h x0 w row0 : Z).
Notation cw := (Sgr_spec.Round2 W xdec).
Notation ch := (Sgr_spec.Round2 H ydec).
Notation St := (Sgr_spec.StripeStartY ydec row0).
Notation En := (Sgr_spec.StripeEndY ydec row0).
Hypothesis G : sgeom bd ch cw St En y0 h x0 w cdef curr.
Let src := source cdef curr x0 y0 (cw - x0) (ch - y0) w h.
Notation gss := (Sgr_spec.get_source_sample W H xdec ydec cdef curr row0).

Lemma source_spec k c : 0 <= c < w + 7 -> src k c = gss (y0 - 4 + k) (x0 - 4 + c).
Proof.
  intros Hc. unfold src, source, vert_padded. cbv zeta. change (- (4)) with (-4). rewrite (pad_cols x0 w cw c (g_x _ _ _ _ _ _ _ _ _ _ _ G)); [|apply G|apply G|exact Hc].
  unfold Sgr_spec.get_source_sample, Sgr_spec.PlaneEndX, Sgr_spec.PlaneEndY. cbv zeta.
  set (X := Z.max 0 (Z.min (cw - 1) (x0 - 4 + c))).
  replace (ch - y0 + y0) with ch by lia.
  pose proof (g_y _ _ _ _ _ _ _ _ _ _ _ G) as Y. pose proof (g_ch _ _ _ _ _ _ _ _ _ _ _ G) as C. pose proof (g_h _ _ _ _ _ _ _ _ _ _ _ G) as Hh.
  rewrite land1. pose proof (Z.mod_pos_bound h 2).
  apply (pad_rows (fun y => cdef y X) (fun y => curr y X)); lia.
Qed.
Lemma gss_range y x : 0 <= gss y x <= 2 ^ bd - 1.
Proof.
  unfold Sgr_spec.get_source_sample, Sgr_spec.PlaneEndX, Sgr_spec.PlaneEndY. cbv zeta.
  pose proof (g_y _ _ _ _ _ _ _ _ _ _ _ G) as Y. pose proof (g_ch _ _ _ _ _ _ _ _ _ _ _ G) as C. pose proof (g_h _ _ _ _ _ _ _ _ _ _ _ G).
  pose proof (g_w _ _ _ _ _ _ _ _ _ _ _ G). pose proof (g_cw _ _ _ _ _ _ _ _ _ _ _ G). pose proof (g_x _ _ _ _ _ _ _ _ _ _ _ G).
  set (S := St) in *. set (E := En) in *. clearbody S E.
  set (y' := Z.min (ch - 1) (Z.max 0 y)). assert (0 <= y' < ch) by (unfold y'; lia). clearbody y'.
  assert (0 <= Z.max 0 (Z.min (cw - 1) x) < cw) by lia. set (x' := Z.max 0 (Z.min (cw - 1) x)) in *. clearbody x'.
  destruct (Z.ltb_spec y' S); [apply (g_curr _ _ _ _ _ _ _ _ _ _ _ G); lia|].
  destruct (Z.ltb_spec E y'); [apply (g_curr _ _ _ _ _ _ _ _ _ _ _ G); lia|apply (g_cdef _ _ _ _ _ _ _ _ _ _ _ G); lia].
Qed.

Let h' := h + Z.land h 1.
Lemma h'_range : h <= h' <= 64 /\ h' mod 2 = 0 /\ h' <= h + 1.
Proof.
  unfold h'. rewrite land1. pose proof (g_h _ _ _ _ _ _ _ _ _ _ _ G). clear - H0. dlia.
Qed.
Variables (m : (Z -> Z) * (Z -> Z)) (set : Z).
Hypothesis I1 : image src 392 (w + 7) (h' + 6) (fst m).
Hypothesis I2 : image (fun i j => src i j * src i j) 392 (w + 7) (h' + 6) (snd m).
Notation A := (Sgr_spec.A bd W H xdec ydec cdef curr row0 set).
Notation B := (Sgr_spec.B bd W H xdec ydec cdef curr row0 set).
Definition holds (pass : Z) (f g : Z -> Z) (i : Z) : Prop :=
  forall x, 0 <= x < w + 2 -> (f x = A pass (y0 + i - 1) (x0 + x - 1) /\ 0 <= f x <= 256) /\
    (g x = B pass (y0 + i - 1) (x0 + x - 1) /\ 0 <= g x <= 1045300).

(* a sum over the image is the window of the specification *)
Lemma window_eq (gg : Z -> Z) rad o y x : (rad = 1 /\ o = 1) \/ (rad = 2 /\ o = 0) ->
  0 <= x < w + 2 -> 
  sum (fun i => sum (fun j => gg (src i j)) (x + o + 1) (Z.to_nat (2 * rad + 1))) (y + o + 1) (Z.to_nat (2 * rad + 1)) =
  sum (fun dy => sum (fun dx => gg (gss (y0 + y - 1 + dy) (x0 + x - 1 + dx))) (- rad) (Z.to_nat (2 * rad + 1))) (- rad) (Z.to_nat (2 * rad + 1)).
Proof.
  intros Hr Hx.
  replace (y + o + 1) with (- rad + (y + 3)) by lia. replace (x + o + 1) with (- rad + (x + 3)) by lia.
  rewrite sum_shift. apply sum_ext. intros dy Hdy. rewrite sum_shift. apply sum_ext. intros dx Hdx. rewrite source_spec by lia.
  do 2 f_equal; lia.
Qed.

Lemma box_spec rad pass y x : (rad = 1 /\ pass = 1) \/ (rad = 2 /\ pass = 0) ->
  let o := pass in
  Sgr_spec.r set pass = rad -> Sgr_spec.s set pass = params_s set pass -> pass_ok rad (params_s set pass) ->
  0 <= y -> y + o + (2 * rad + 1) < h' + 6 -> 0 <= x < w + 2 ->
  sgrproj_sum_finish bd (get_integral_square (snd m) (o * 392 + o) 392 x y (2 * rad + 1))
    (get_integral_square (fst m) (o * 392 + o) 392 x y (2 * rad + 1)) (nn rad) (one_of rad) (params_s set pass) =
  (A pass (y0 + y - 1) (x0 + x - 1), B pass (y0 + y - 1) (x0 + x - 1)) /\
  0 <= A pass (y0 + y - 1) (x0 + x - 1) <= 256 /\ 0 <= B pass (y0 + y - 1) (x0 + x - 1) <= 1045300.
Proof.
  intros Hrp o Hr Hs Hok Hy Hyd Hx.
  assert (Hbd : bd_ok bd) by apply G.
  assert (R : forall i j, 0 <= i < h' + 6 -> 0 <= j < w + 7 -> 0 <= src i j <= 4095).
  { intros i j Hi Hj. rewrite source_spec by exact Hj. pose proof (gss_range (y0 - 4 + i) (x0 - 4 + j)) as X.
    assert (2 ^ bd <= 4096) by (destruct Hbd as [->|[->| ->]]; vm_compute; discriminate). lia. }
  assert (Ho : 0 <= o <= 1) by lia.
  rewrite (square_spec _ 392 (w + 7) (h' + 6) (snd m) (o * 392 + o) o o x y (2 * rad + 1) I2); try lia;
    [|intros i j Hi Hj; specialize (R i j Hi Hj); nia].
  rewrite (square_spec _ 392 (w + 7) (h' + 6) (fst m) (o * 392 + o) o o x y (2 * rad + 1) I1); try lia;
    [|intros i j Hi Hj; specialize (R i j Hi Hj); lia].
  assert (Hro : (rad = 1 /\ o = 1) \/ (rad = 2 /\ o = 0)) by (unfold o; lia).
  rewrite (window_eq (fun c => c * c) rad o y x Hro Hx).
  assert (WE : sum (fun i => sum (src i) (x + o + 1) (Z.to_nat (2 * rad + 1))) (y + o + 1) (Z.to_nat (2 * rad + 1)) =
    sum (fun dy => sum (fun dx => gss (y0 + y - 1 + dy) (x0 + x - 1 + dx)) (- rad) (Z.to_nat (2 * rad + 1))) (- rad) (Z.to_nat (2 * rad + 1))).
  { exact (window_eq (fun c => c) rad o y x Hro Hx). }
  rewrite WE.
  set (f dy dx := gss (y0 + y - 1 + dy) (x0 + x - 1 + dx)). set (d := Z.to_nat (2 * rad + 1)).
  set (l := wlist f (- rad) (- rad) d).
  assert (SQ : sum (fun dy => sum (fun dx => gss (y0 + y - 1 + dy) (x0 + x - 1 + dx) * gss (y0 + y - 1 + dy) (x0 + x - 1 + dx)) (- rad) d) (- rad) d
    = lsum (map (fun x => x * x) l)) by exact (wlist_sum (fun c => c * c) f (- rad) (- rad) d).
  assert (SU : sum (fun dy => sum (fun dx => gss (y0 + y - 1 + dy) (x0 + x - 1 + dx)) (- rad) d) (- rad) d = lsum l).
  { etransitivity; [exact (wlist_sum (fun c => c) f (- rad) (- rad) d)|]. rewrite map_id. reflexivity. }
  rewrite SQ, SU.
  assert (Fl : Forall (fun x => 0 <= x <= 2 ^ bd - 1) l) by (apply wlist_in; intros; apply gss_range).
  assert (Ll : zlen l = nn rad) by (unfold l; rewrite wlist_len; unfold d, nn; lia).
  assert (EA : A pass (y0 + y - 1) (x0 + x - 1) = a_of bd (nn rad) (params_s set pass) (lsum (map (fun x => x * x) l)) (lsum l)).
  { unfold Sgr_spec.A, Sgr_spec.window. rewrite Hr. fold d.
    rewrite SQ, SU.
    unfold Sgr_spec.box_a2, Sgr_spec.n. rewrite Hr, Hs. reflexivity. }
  assert (EB : B pass (y0 + y - 1) (x0 + x - 1) = b_of bd (nn rad) (params_s set pass) (one_of rad) (lsum (map (fun x => x * x) l)) (lsum l)).
  { unfold Sgr_spec.B, Sgr_spec.window. rewrite Hr. fold d.
    rewrite SQ, SU.
    unfold Sgr_spec.box_b2, Sgr_spec.box_a2, Sgr_spec.oneByN, Sgr_spec.n. rewrite Hr, Hs.
    assert (O : (2 ^ Sgr_spec.SGRPROJ_RECIP_BITS + (2 * rad + 1) * (2 * rad + 1) / 2) / ((2 * rad + 1) * (2 * rad + 1)) = one_of rad) by (destruct Hrp as [[-> _]|[-> _]]; reflexivity).
    rewrite O. reflexivity. }
  rewrite EA, EB. split; [apply finish_spec; assumption|].
  assert (S0 : 0 <= params_s set pass) by (destruct Hok; lia).
  split; [pose proof (a_range bd (nn rad) (params_s set pass) _ _ S0 (proj1 (p_range bd rad l Hbd ltac:(lia) Fl Ll))); lia|].
  apply (b_range bd rad (params_s set pass) l Hbd Hok Fl Ll).
Qed.

Lemma box_ab_spec rad pass y ab : (rad = 1 /\ pass = 1) \/ (rad = 2 /\ pass = 0) ->
  Sgr_spec.r set pass = rad -> Sgr_spec.s set pass = params_s set pass -> pass_ok rad (params_s set pass) ->
  0 <= y -> y + pass + (2 * rad + 1) < h' + 6 ->
  exists f g, box_ab bd rad STRIPE_IMAGE_SIZE (pass * 392 + pass) m 392 y w (params_s set pass) ab = Some (f, g) /\ holds pass f g y.
Proof.
  intros Hrp Hr Hs Hok Hy Hyd. unfold box_ab. cbv zeta.
  pose proof h'_range as Hh. pose proof (g_w _ _ _ _ _ _ _ _ _ _ _ G) as Hw.
  change (rad * 2 + 1) with (rad * 2 + 1). replace (rad * 2 + 1) with (2 * rad + 1) by lia.
  destruct (Z.ltb_spec ((y + (2 * rad + 1)) * 392 + w + 1 + (2 * rad + 1)) (STRIPE_IMAGE_SIZE - (pass * 392 + pass))) as [L1|L1];
    [|change STRIPE_IMAGE_SIZE with 28224 in L1; exfalso; clear - L1 Hh Hw Hyd Hrp; lia].
  destruct (Z.ltb_spec (w + 1) (IMAGE_WIDTH_MAX + 2)) as [L2|L2]; [|change IMAGE_WIDTH_MAX with 384 in L2; lia].
  cbn [andb]. eexists _, _. split; [reflexivity|]. intros x Hx. cbv beta.
  destruct (Z.leb_spec 0 x); [|lia]. destruct (Z.ltb_spec x (w + 2)); [|lia]. cbn [andb].
  change ((2 * rad + 1) * (2 * rad + 1)) with (nn rad). change (if rad =? 1 then 455 else 164) with (one_of rad).
  destruct (box_spec rad pass y x Hrp Hr Hs Hok Hy Hyd Hx) as (E & RA & RB). rewrite E. cbn [fst snd]. auto.
Qed.

(** ** The kernels on rows that hold the specification's arrays *)
Notation flt := (Sgr_spec.flt bd W H xdec ydec cdef curr row0 set).
Lemma flt1 i y x : flt 1 i y x =
  Sgr_spec.Round2 ((3 * (A 1 (y - 1) (x - 1) + A 1 (y + 1) (x - 1) + A 1 (y - 1) (x + 1) + A 1 (y + 1) (x + 1)) +
    4 * (A 1 y (x - 1) + A 1 (y - 1) x + A 1 y x + A 1 (y + 1) x + A 1 y (x + 1))) * cdef y x +
    (3 * (B 1 (y - 1) (x - 1) + B 1 (y + 1) (x - 1) + B 1 (y - 1) (x + 1) + B 1 (y + 1) (x + 1)) +
    4 * (B 1 y (x - 1) + B 1 (y - 1) x + B 1 y x + B 1 (y + 1) x + B 1 y (x + 1)))) 9.
Proof.
  unfold Sgr_spec.flt. cbv zeta. change (1 =? 0) with false. cbn [andb]. change (Sgr_spec.SGRPROJ_SGR_BITS + 5 - Sgr_spec.SGRPROJ_RST_BITS) with 9.
  f_equal. rewrite !sum3. unfold Sgr_spec.weight. cbn [Z.eqb orb]. rewrite !Z.add_0_r.
  replace (y + -1) with (y - 1) by lia. replace (x + -1) with (x - 1) by lia. f_equal; [f_equal|]; lia.
Qed.
Lemma flt0_even i y x : i mod 2 = 0 -> flt 0 i y x =
  Sgr_spec.Round2 ((5 * (A 0 (y - 1) (x - 1) + A 0 (y - 1) (x + 1)) + 6 * A 0 (y - 1) x +
     (5 * (A 0 (y + 1) (x - 1) + A 0 (y + 1) (x + 1)) + 6 * A 0 (y + 1) x)) * cdef y x +
    (5 * (B 0 (y - 1) (x - 1) + B 0 (y - 1) (x + 1)) + 6 * B 0 (y - 1) x +
     (5 * (B 0 (y + 1) (x - 1) + B 0 (y + 1) (x + 1)) + 6 * B 0 (y + 1) x))) 9.
Proof.
  intros Hi. unfold Sgr_spec.flt. cbv zeta. rewrite Hi. change (0 =? 0) with true. change (0 =? 1) with false. cbn [andb].
  change (Sgr_spec.SGRPROJ_SGR_BITS + 5 - Sgr_spec.SGRPROJ_RST_BITS) with 9.
  f_equal. rewrite !sum3. unfold Sgr_spec.weight. rewrite !Z.add_0_r. rewrite Hi.
  replace ((i + -1) mod 2) with 1 by dlia. replace ((i + 1) mod 2) with 1 by dlia. cbn [Z.eqb Pos.eqb orb].
  replace (y + -1) with (y - 1) by lia. replace (x + -1) with (x - 1) by lia. f_equal; [f_equal|]; lia.
Qed.
Lemma flt0_odd i y x : i mod 2 = 1 -> flt 0 i y x =
  Sgr_spec.Round2 ((5 * (A 0 y (x - 1) + A 0 y (x + 1)) + 6 * A 0 y x) * cdef y x + (5 * (B 0 y (x - 1) + B 0 y (x + 1)) + 6 * B 0 y x)) 8.
Proof.
  intros Hi. unfold Sgr_spec.flt. cbv zeta. rewrite Hi. change (0 =? 0) with true. change (1 =? 1) with true. cbn [andb].
  change (Sgr_spec.SGRPROJ_SGR_BITS + 4 - Sgr_spec.SGRPROJ_RST_BITS) with 8.
  f_equal. rewrite !sum3. unfold Sgr_spec.weight. rewrite !Z.add_0_r. rewrite Hi.
  replace ((i + -1) mod 2) with 0 by dlia. replace ((i + 1) mod 2) with 0 by dlia. cbn [Z.eqb Pos.eqb orb].
  replace (x + -1) with (x - 1) by lia. f_equal; [f_equal|]; lia.
Qed.

Lemma kernel1 (af bf : Z -> Z -> Z) y x i : (forall k, 0 <= k <= 2 -> holds 1 (af k) (bf k) (y + k)) -> 0 <= x < w -> 0 <= y -> y0 + y < ch ->
  f_r1 af bf (fun x => cdef (y0 + y) (x0 + x)) x = flt 1 i (y0 + y) (x0 + x).
Proof.
  intros Hh Hx Hy Hc. pose proof (g_ch _ _ _ _ _ _ _ _ _ _ _ G). pose proof (g_cw _ _ _ _ _ _ _ _ _ _ _ G). pose proof (g_x _ _ _ _ _ _ _ _ _ _ _ G).
  assert (HL : 0 <= cdef (y0 + y) (x0 + x) <= 4095).
  { pose proof (g_cdef _ _ _ _ _ _ _ _ _ _ _ G (y0 + y) (x0 + x) ltac:(lia) ltac:(lia)).
    assert (2 ^ bd <= 4096) by (destruct (g_bd _ _ _ _ _ _ _ _ _ _ _ G) as [->|[->| ->]]; vm_compute; discriminate). lia. }
  rewrite (proj1 (f_r1_spec af bf (fun x => cdef (y0 + y) (x0 + x)) x
    ltac:(intros k j Hk Hj; apply (Hh k Hk (x + j)); lia) ltac:(intros k j Hk Hj; apply (Hh k Hk (x + j)); lia) HL)).
  rewrite flt1.
  assert (EA : forall k j, 0 <= k <= 2 -> 0 <= j <= 2 -> af k (x + j) = A 1 (y0 + y + (k - 1)) (x0 + x + (j - 1))).
  { intros k j Hk Hj. destruct (Hh k Hk (x + j) ltac:(lia)) as [[-> _] _]. f_equal; lia. }
  assert (EB : forall k j, 0 <= k <= 2 -> 0 <= j <= 2 -> bf k (x + j) = B 1 (y0 + y + (k - 1)) (x0 + x + (j - 1))).
  { intros k j Hk Hj. destruct (Hh k Hk (x + j) ltac:(lia)) as [_ [-> _]]. f_equal; lia. }
  replace (af 0 x) with (af 0 (x + 0)) by (f_equal; lia). replace (af 1 x) with (af 1 (x + 0)) by (f_equal; lia). replace (af 2 x) with (af 2 (x + 0)) by (f_equal; lia).
  replace (bf 0 x) with (bf 0 (x + 0)) by (f_equal; lia). replace (bf 1 x) with (bf 1 (x + 0)) by (f_equal; lia). replace (bf 2 x) with (bf 2 (x + 0)) by (f_equal; lia).
  rewrite !EA, !EB by lia. change (0 - 1) with (-1). change (1 - 1) with 0. change (2 - 1) with 1. rewrite !Z.add_0_r.
  replace (y0 + y + -1) with (y0 + y - 1) by lia. replace (x0 + x + -1) with (x0 + x - 1) by lia. reflexivity.
Qed.
Lemma line_range y x : 0 <= y -> y0 + y < ch -> 0 <= x < w -> 0 <= cdef (y0 + y) (x0 + x) <= 4095.
Proof.
  intros Hy Hc Hx. pose proof (g_ch _ _ _ _ _ _ _ _ _ _ _ G). pose proof (g_cw _ _ _ _ _ _ _ _ _ _ _ G). pose proof (g_x _ _ _ _ _ _ _ _ _ _ _ G).
  pose proof (g_cdef _ _ _ _ _ _ _ _ _ _ _ G (y0 + y) (x0 + x) ltac:(lia) ltac:(lia)).
  assert (2 ^ bd <= 4096) by (destruct (g_bd _ _ _ _ _ _ _ _ _ _ _ G) as [->|[->| ->]]; vm_compute; discriminate). lia.
Qed.
Lemma at0 (f : Z -> Z) x : f x = f (x + 0).
Proof. now rewrite Z.add_0_r. Qed.
Lemma kernel2_fst (af bf : Z -> Z -> Z) l1 y x i : holds 0 (af 0) (bf 0) y -> holds 0 (af 1) (bf 1) (y + 2) ->
  0 <= x < w -> 0 <= y -> y0 + y < ch -> i mod 2 = 0 ->
  fst (f_r2 af bf (fun x => cdef (y0 + y) (x0 + x)) l1 x) = flt 0 i (y0 + y) (x0 + x).
Proof.
  intros H0 H1 Hx Hy Hc Hi.
  assert (K : forall k, 0 <= k <= 1 -> holds 0 (af k) (bf k) (y + 2 * k)).
  { intros k Hk. assert (D : k = 0 \/ k = 1) by lia. destruct D as [-> | ->]; [rewrite Z.mul_0_r, Z.add_0_r; exact H0|exact H1]. }
  rewrite (f_r2_fst af bf (fun x => cdef (y0 + y) (x0 + x)) l1 x); [|intros k j Hk Hj; apply (K k Hk (x + j)); lia|intros k j Hk Hj; apply (K k Hk (x + j)); lia|apply line_range; assumption].
  rewrite flt0_even by exact Hi.
  assert (EA : forall k j, 0 <= k <= 1 -> 0 <= j <= 2 -> af k (x + j) = A 0 (y0 + y + (2 * k - 1)) (x0 + x + (j - 1))).
  { intros k j Hk Hj. destruct (K k Hk (x + j) ltac:(lia)) as [[-> _] _]. f_equal; lia. }
  assert (EB : forall k j, 0 <= k <= 1 -> 0 <= j <= 2 -> bf k (x + j) = B 0 (y0 + y + (2 * k - 1)) (x0 + x + (j - 1))).
  { intros k j Hk Hj. destruct (K k Hk (x + j) ltac:(lia)) as [_ [-> _]]. f_equal; lia. }
  rewrite (at0 (af 0) x), (at0 (af 1) x), (at0 (bf 0) x), (at0 (bf 1) x).
  rewrite !EA, !EB by lia. change (2 * 0 - 1) with (-1). change (2 * 1 - 1) with 1. change (0 - 1) with (-1). change (1 - 1) with 0. change (2 - 1) with 1. rewrite !Z.add_0_r.
  replace (y0 + y + -1) with (y0 + y - 1) by lia. replace (x0 + x + -1) with (x0 + x - 1) by lia. reflexivity.
Qed.
Lemma kernel2_snd (af bf : Z -> Z -> Z) l0 y x i : holds 0 (af 1) (bf 1) (y + 2) ->
  0 <= x < w -> 0 <= y -> y0 + (y + 1) < ch -> i mod 2 = 1 ->
  snd (f_r2 af bf l0 (fun x => cdef (y0 + (y + 1)) (x0 + x)) x) = flt 0 i (y0 + (y + 1)) (x0 + x).
Proof.
  intros K Hx Hy Hc Hi.
  rewrite (f_r2_snd af bf l0 (fun x => cdef (y0 + (y + 1)) (x0 + x)) x); [|intros j Hj; apply (K (x + j)); lia|intros j Hj; apply (K (x + j)); lia|apply line_range; [lia|exact Hc|exact Hx]].
  rewrite flt0_odd by exact Hi.
  assert (EA : forall j, 0 <= j <= 2 -> af 1 (x + j) = A 0 (y0 + (y + 1)) (x0 + x + (j - 1))).
  { intros j Hj. destruct (K (x + j) ltac:(lia)) as [[-> _] _]. f_equal; lia. }
  assert (EB : forall j, 0 <= j <= 2 -> bf 1 (x + j) = B 0 (y0 + (y + 1)) (x0 + x + (j - 1))).
  { intros j Hj. destruct (K (x + j) ltac:(lia)) as [_ [-> _]]. f_equal; lia. }
  rewrite (at0 (af 1) x), (at0 (bf 1) x).
  rewrite !EA, !EB by lia. change (0 - 1) with (-1). change (1 - 1) with 0. change (2 - 1) with 1. rewrite !Z.add_0_r.
  replace (x0 + x + -1) with (x0 + x - 1) by lia. reflexivity.
Qed.

(** ** Rows and pairs of rows *)
Variables (xqd0 xqd1 : Z).
Hypothesis Hset : 0 <= set < 16.
Hypothesis Hxq : params_s set 0 = 0 -> xqd0 = 0.
Definition rowi (yy : Z) : Z := yy - Sgr_spec.row_of ydec yy * Sgr_spec.MI_SIZE / 2 ^ ydec.
Hypothesis Hrow : forall yy, y0 <= yy < y0 + h -> yy < ch ->
  Sgr_spec.StripeNum (Sgr_spec.row_of ydec yy) = Sgr_spec.StripeNum row0 /\ rowi yy mod 2 = (yy - y0) mod 2.
Definition xqd (i : Z) : Z := if i =? 0 then xqd0 else xqd1.
Definition target (yy xx : Z) : Z := Sgr_spec.self_guided bd W H xdec ydec cdef curr (Sgr_spec.row_of ydec yy) set xqd yy xx.

Lemma flt_row row pass i y x : Sgr_spec.StripeNum row = Sgr_spec.StripeNum row0 ->
  Sgr_spec.flt bd W H xdec ydec cdef curr row set pass i y x = flt pass i y x.
Proof.
  intros E. unfold Sgr_spec.flt, Sgr_spec.A, Sgr_spec.B, Sgr_spec.window, Sgr_spec.get_source_sample, Sgr_spec.StripeEndY, Sgr_spec.StripeStartY.
  rewrite E. reflexivity.
Qed.
Definition pass0 (yy xx : Z) : Z := if negb (Sgr_spec.r set 0 =? 0) then flt 0 (rowi yy) yy xx else cdef yy xx * 2 ^ 4.
Definition pass1 (yy xx : Z) : Z := if negb (Sgr_spec.r set 1 =? 0) then flt 1 (rowi yy) yy xx else cdef yy xx * 2 ^ 4.
Lemma target_eq yy xx f2 f1 : y0 <= yy < y0 + h -> yy < ch -> xqd0 * f2 = xqd0 * pass0 yy xx -> f1 = pass1 yy xx ->
  apply_filter bd xqd0 xqd1 (Z.shiftl 1 SGRPROJ_PRJ_BITS - xqd0 - xqd1) (cdef yy xx) f2 f1 = target yy xx.
Proof.
  intros Hy Hc E2 E1. rewrite apply_filter_spec by (destruct (g_bd _ _ _ _ _ _ _ _ _ _ _ G) as [->|[->| ->]]; lia).
  unfold target, Sgr_spec.self_guided. cbv zeta. change (xqd 0) with xqd0. change (xqd 1) with xqd1.
  rewrite !(flt_row _ _ _ _ _ (proj1 (Hrow yy Hy Hc))). change Sgr_spec.SGRPROJ_RST_BITS with 4. change Sgr_spec.SGRPROJ_PRJ_BITS with 7.
  fold (rowi yy). fold (pass0 yy xx). fold (pass1 yy xx). rewrite E2, E1. reflexivity.
Qed.

Definition held1 (g : rings) (y : Z) : Prop := 0 < params_s set 1 -> holds 1 (a1 g (y mod 3)) (b1 g (y mod 3)) y.
Definition held2 (g : rings) (k : Z) : Prop := 0 < params_s set 0 -> holds 0 (a2 g (k mod 2)) (b2 g (k mod 2)) (2 * k).
Lemma put_same (mm : Z -> Z -> Z) k f : put_slot mm k f k = f.
Proof. unfold put_slot. now rewrite Z.eqb_refl. Qed.
Lemma put_diff (mm : Z -> Z -> Z) k k' f : k' <> k -> put_slot mm k f k' = mm k'.
Proof. intros. unfold put_slot. destruct (Z.eqb_spec k' k); [lia|reflexivity]. Qed.

Lemma ab_r1_ok y g : 0 < params_s set 1 -> 0 <= y <= h + 1 ->
  exists g', ab_r1 bd STRIPE_IMAGE_SIZE m 392 y w (params_s set 1) (y mod 3) g = Some g' /\
    holds 1 (a1 g' (y mod 3)) (b1 g' (y mod 3)) y /\ (forall k, k <> y mod 3 -> a1 g' k = a1 g k /\ b1 g' k = b1 g k) /\
    a2 g' = a2 g /\ b2 g' = b2 g.
Proof.
  intros Hp Hy. destruct (params_table set Hset) as [_ [[E _]|(Hs & Hr & Es)]]; [lia|].
  destruct (box_ab_spec 1 1 y (a1 g (y mod 3), b1 g (y mod 3))) as (f & g1 & E & K); [lia|exact Hr|exact Es|left; lia|lia|pose proof h'_range; lia|].
  unfold ab_r1. change (392 + 1) with (1 * 392 + 1). rewrite E. cbn [bind fst snd].
  eexists. split; [reflexivity|]. cbn [a1 b1 a2 b2]. rewrite !put_same. split; [exact K|]. split; [|auto].
  intros k Hk. rewrite !put_diff by exact Hk. auto.
Qed.
Lemma ab_r2_ok k g : 0 < params_s set 0 -> 0 <= k -> 2 * k <= h' ->
  exists g', ab_r2 bd STRIPE_IMAGE_SIZE m 392 (2 * k) w (params_s set 0) (k mod 2) g = Some g' /\
    holds 0 (a2 g' (k mod 2)) (b2 g' (k mod 2)) (2 * k) /\ (forall j, j <> k mod 2 -> a2 g' j = a2 g j /\ b2 g' j = b2 g j) /\
    a1 g' = a1 g /\ b1 g' = b1 g.
Proof.
  intros Hp Hk Hy. destruct (params_table set Hset) as [[[E _]|(Hs & Hr & Es)] _]; [lia|].
  destruct (box_ab_spec 2 0 (2 * k) (a2 g (k mod 2), b2 g (k mod 2))) as (f & g1 & E & K); [lia|exact Hr|exact Es|right; lia|lia|lia|].
  unfold ab_r2. change (0 * 392 + 0) with 0 in E. rewrite E. cbn [bind fst snd].
  eexists. split; [reflexivity|]. cbn [a1 b1 a2 b2]. rewrite !put_same. split; [exact K|]. split; [|auto].
  intros j Hj. rewrite !put_diff by exact Hj. auto.
Qed.

Definition in_row (y yy xx : Z) : bool := (yy =? y0 + y) && (x0 <=? xx) && (xx <? x0 + w).
Lemma row_ok y f2 g out : 0 <= y < h -> held1 g y -> held1 g (y + 1) ->
  (y0 + y < ch -> forall x, 0 <= x < w -> xqd0 * f2 x = xqd0 * pass0 (y0 + y) (x0 + x)) ->
  exists g' out', stripe_row bd set xqd0 xqd1 STRIPE_IMAGE_SIZE m 392 cdef x0 y0 w f2 y (g, out) = Some (g', out') /\
    a2 g' = a2 g /\ b2 g' = b2 g /\ held1 g' (y + 1) /\ held1 g' (y + 2) /\
    (forall yy xx, yy < ch -> out' yy xx = if in_row y yy xx then target yy xx else out yy xx).
Proof.
  intros Hy H0 H1 H2. unfold stripe_row. cbv zeta. destruct (params_table set Hset) as [_ T].
  destruct (Z.ltb_spec 0 (params_s set 1)) as [P|P].
  - destruct (ab_r1_ok (y + 2) g P ltac:(lia)) as (g' & E & K & D & E2 & E3). rewrite E. cbn [bind].
    assert (K0 : holds 1 (a1 g' (y mod 3)) (b1 g' (y mod 3)) y) by (destruct (D (y mod 3) ltac:(dlia)) as [-> ->]; apply H0; exact P).
    assert (K1 : holds 1 (a1 g' ((y + 1) mod 3)) (b1 g' ((y + 1) mod 3)) (y + 1)) by (destruct (D ((y + 1) mod 3) ltac:(dlia)) as [-> ->]; apply H1; exact P).
    eexists g', _. split; [reflexivity|]. split; [exact E2|]. split; [exact E3|]. split; [intro; exact K1|]. split; [intro; exact K|].
    intros yy xx Hc. unfold put_row. fold (in_row y yy xx). destruct (in_row y yy xx) eqn:IR; [|reflexivity].
    unfold in_row in IR. apply andb_prop in IR. destruct IR as [IR X2]. apply andb_prop in IR. destruct IR as [Y X1].
    apply Z.eqb_eq in Y. apply Z.leb_le in X1. apply Z.ltb_lt in X2. subst yy.
    replace (x0 + (xx - x0)) with xx by lia. apply target_eq; [lia|exact Hc| |].
    + rewrite (H2 Hc (xx - x0)) by lia. do 2 f_equal. lia.
    + unfold pass1. destruct T as [[T _]|(_ & T & _)]; [lia|]. rewrite T. change (negb (1 =? 0)) with true. cbv iota.
      rewrite (kernel1 _ _ y (xx - x0) (rowi (y0 + y))); [f_equal; lia| |lia|lia|exact Hc].
      intros k Hk. assert (Dk : k = 0 \/ k = 1 \/ k = 2) by lia. destruct Dk as [->|[->| ->]]; [rewrite Z.add_0_r; exact K0|exact K1|exact K].
  - cbn [bind]. eexists g, _. split; [reflexivity|]. split; [reflexivity|]. split; [reflexivity|]. split; [intro; lia|]. split; [intro; lia|].
    intros yy xx Hc. unfold put_row. fold (in_row y yy xx). destruct (in_row y yy xx) eqn:IR; [|reflexivity].
    unfold in_row in IR. apply andb_prop in IR. destruct IR as [IR X2]. apply andb_prop in IR. destruct IR as [Y X1].
    apply Z.eqb_eq in Y. apply Z.leb_le in X1. apply Z.ltb_lt in X2. subst yy.
    replace (x0 + (xx - x0)) with xx by lia. apply target_eq; [lia|exact Hc| |].
    + rewrite (H2 Hc (xx - x0)) by lia. do 2 f_equal. lia.
    + unfold pass1. destruct T as [[_ T]|(T & _)]; [|lia]. rewrite T. change (negb (0 =? 0)) with false. cbv iota.
      unfold f_r0. rewrite Z.shiftl_mul_pow2 by (vm_compute; discriminate). change SGRPROJ_RST_BITS with 4. do 2 f_equal. lia.
Qed.

Definition rows_done (n yy xx : Z) : bool := (y0 <=? yy) && (yy <? y0 + n) && (x0 <=? xx) && (xx <? x0 + w).
Lemma done_step n yy xx (t o : Z) : 0 <= n ->
  (if in_row n yy xx then t else if rows_done n yy xx then t else o) = (if rows_done (n + 1) yy xx then t else o).
Proof.
  intros Hn. unfold in_row, rows_done.
  destruct (Z.eqb_spec yy (y0 + n)); destruct (Z.leb_spec y0 yy); destruct (Z.ltb_spec yy (y0 + n)); destruct (Z.ltb_spec yy (y0 + (n + 1)));
  destruct (x0 <=? xx); destruct (xx <? x0 + w); cbn [andb]; try reflexivity; lia.
Qed.
Lemma pair_ok k g out out0 : 0 <= k -> 2 * k < h -> held1 g (2 * k) -> held1 g (2 * k + 1) -> held2 g k ->
  (forall yy xx, yy < ch -> out yy xx = if rows_done (2 * k) yy xx then target yy xx else out0 yy xx) ->
  exists g' out', stripe_pair bd set xqd0 xqd1 STRIPE_IMAGE_SIZE m 392 cdef x0 y0 w h (2 * k) (g, out) = Some (g', out') /\
    (2 * k + 2 <= h -> held1 g' (2 * k + 2) /\ held1 g' (2 * k + 3)) /\ held2 g' (k + 1) /\
    (forall yy xx, yy < ch -> out' yy xx = if rows_done (Z.min h (2 * k + 2)) yy xx then target yy xx else out0 yy xx).
Proof.
  intros Hk Hkh H0 H1 H2 HO. unfold stripe_pair. cbv zeta. replace (2 * k / 2) with k by dlia.
  destruct (params_table set Hset) as [T _].
  (* what the first part does *)
  assert (F : exists g1 f2, (if 0 <? params_s set 0 then
      do g <- ab_r2 bd STRIPE_IMAGE_SIZE m 392 (2 * k + 2) w (params_s set 0) ((k + 1) mod 2) g;
      Some (g, fun dy x => if dy =? 0 then fst (f_r2 (fun k0 => a2 g ((k + k0) mod 2)) (fun k0 => b2 g ((k + k0) mod 2)) (fun x => cdef (y0 + 2 * k + 0) (x0 + x)) (fun x => cdef (y0 + 2 * k + 1) (x0 + x)) x)
        else snd (f_r2 (fun k0 => a2 g ((k + k0) mod 2)) (fun k0 => b2 g ((k + k0) mod 2)) (fun x => cdef (y0 + 2 * k + 0) (x0 + x)) (fun x => cdef (y0 + 2 * k + 1) (x0 + x)) x))
    else Some (g, fun dy => f_r0 (fun x => cdef (y0 + 2 * k + 0) (x0 + x)))) = Some (g1, f2) /\ a1 g1 = a1 g /\ b1 g1 = b1 g /\ held2 g1 (k + 1) /\
    (forall dy, 0 <= dy <= 1 -> y0 + (2 * k + dy) < ch -> 2 * k + dy < h -> forall x, 0 <= x < w -> xqd0 * f2 dy x = xqd0 * pass0 (y0 + (2 * k + dy)) (x0 + x))).
  { destruct (Z.ltb_spec 0 (params_s set 0)) as [P|P].
    - assert (L : 2 * (k + 1) <= h') by (pose proof h'_range as HH; clear - HH Hkh; dlia).
      destruct (ab_r2_ok (k + 1) g P ltac:(lia) L) as (g1 & E & K & D & E1 & E2).
      replace (2 * k + 2) with (2 * (k + 1)) by lia. rewrite E. cbn [bind]. eexists g1, _. split; [reflexivity|]. split; [exact E1|]. split; [exact E2|]. split; [intro; exact K|].
      assert (K0 : holds 0 (a2 g1 (k mod 2)) (b2 g1 (k mod 2)) (2 * k)) by (destruct (D (k mod 2) ltac:(dlia)) as [-> ->]; apply H2; exact P).
      destruct T as [[T _]|(_ & T & _)]; [lia|].
      intros dy Hdy Hc Hlt x Hx. f_equal. unfold pass0. rewrite T. change (negb (2 =? 0)) with true. cbv iota.
      destruct (Hrow (y0 + (2 * k + dy)) ltac:(lia) Hc) as [_ Hi].
      assert (Dd : dy = 0 \/ dy = 1) by lia. destruct Dd as [-> | ->].
      + change (0 =? 0) with true. cbv iota. replace (2 * k + 0) with (2 * k) in * by lia. replace (y0 + 2 * k + 0) with (y0 + 2 * k) by lia.
        apply kernel2_fst; [rewrite Z.add_0_r; exact K0| |exact Hx|lia|exact Hc|rewrite Hi; clear; dlia].
        replace (2 * k + 2) with (2 * (k + 1)) by lia. exact K.
      + change (1 =? 0) with false. cbv iota. replace (y0 + 2 * k + 1) with (y0 + (2 * k + 1)) by lia.
        apply kernel2_snd; [|exact Hx|lia|exact Hc|rewrite Hi; clear; dlia].
        replace (2 * k + 2) with (2 * (k + 1)) by lia. exact K.
    - assert (Z0 : params_s set 0 = 0) by (destruct T as [[T _]|(T & _)]; lia).
      eexists g, _. split; [reflexivity|]. split; [reflexivity|]. split; [reflexivity|]. split; [intro; lia|].
      intros. rewrite (Hxq Z0). lia. }
  destruct F as (g1 & f2 & EF & EA & EB & K2 & HF). rewrite EF. clear EF. cbn [bind].
  assert (M0 : held1 g1 (2 * k)) by (unfold held1; rewrite EA, EB; exact H0).
  assert (M1 : held1 g1 (2 * k + 1)) by (unfold held1; rewrite EA, EB; exact H1).
  destruct (ofor_ind (fun dy st => a2 (fst st) = a2 g1 /\ b2 (fst st) = b2 g1 /\ held1 (fst st) (2 * k + dy) /\ held1 (fst st) (2 * k + dy + 1) /\
      (forall yy xx, yy < ch -> snd st yy xx = if rows_done (2 * k + dy) yy xx then target yy xx else out0 yy xx))
    0 (Z.min 2 (h - 2 * k)) (fun dy => stripe_row bd set xqd0 xqd1 STRIPE_IMAGE_SIZE m 392 cdef x0 y0 w (f2 dy) (2 * k + dy)) (g1, out)) as ([g' out'] & EO & A2 & B2 & R0 & R1 & RO).
  - lia.
  - cbn [fst snd]. rewrite Z.add_0_r. auto 10.
  - intros dy [g2 o2] Hdy (A2 & B2 & R0 & R1 & RO). cbn [fst snd] in *.
    destruct (row_ok (2 * k + dy) (f2 dy) g2 o2 ltac:(lia) R0 R1) as (g3 & o3 & E3 & A3 & B3 & S1 & S2 & SO).
    { intros Hc x Hx. apply HF; lia. }
    exists (g3, o3). split; [exact E3|]. cbn [fst snd]. rewrite A3, B3. split; [exact A2|]. split; [exact B2|].
    split; [rewrite Z.add_assoc; exact S1|]. split; [replace (2 * k + (dy + 1) + 1) with (2 * k + dy + 2) by lia; exact S2|].
    intros yy xx Hc. rewrite (SO yy xx Hc), (RO yy xx Hc). rewrite Z.add_assoc. apply done_step. lia.
  - exists g', out'. cbn [fst snd] in *. split; [exact EO|]. split.
    + intros Hle. replace (Z.min 2 (h - 2 * k)) with 2 in * by lia. split; [exact R0|]. replace (2 * k + 3) with (2 * k + 2 + 1) by lia. exact R1.
    + split; [unfold held2; rewrite A2, B2; exact K2|]. intros yy xx Hc. rewrite (RO yy xx Hc). replace (2 * k + Z.min 2 (h - 2 * k)) with (Z.min h (2 * k + 2)) by lia. reflexivity.
Qed.

Lemma stripe_ok out : exists out', sgrproj_stripe_filter bd set xqd0 xqd1 STRIPE_IMAGE_SIZE m 392 cdef x0 y0 w h out = Some out' /\
  forall yy xx, yy < ch -> out' yy xx = if rows_done h yy xx then target yy xx else out yy xx.
Proof.
  unfold sgrproj_stripe_filter. cbv zeta.
  assert (Eb : (bd =? 8) || (bd =? 10) || (bd =? 12) = true) by (destruct (g_bd _ _ _ _ _ _ _ _ _ _ _ G) as [->|[->| ->]]; reflexivity). rewrite Eb.
  pose proof (g_w _ _ _ _ _ _ _ _ _ _ _ G) as Hw. pose proof (g_h _ _ _ _ _ _ _ _ _ _ _ G) as Hh. pose proof h'_range as Hh'.
  destruct (Z.leb_spec w IMAGE_WIDTH_MAX) as [_|L]; [|change IMAGE_WIDTH_MAX with 384 in L; lia]. cbn [andb].
  set (zero := {| a2 := _; b2 := _; a1 := _; b1 := _ |}).
  assert (F1 : exists g, (if 0 <? params_s set 0 then ab_r2 bd STRIPE_IMAGE_SIZE m 392 0 w (params_s set 0) 0 zero else Some zero) = Some g /\ held2 g 0).
  { destruct (Z.ltb_spec 0 (params_s set 0)) as [P|P].
    - destruct (ab_r2_ok 0 zero P ltac:(lia) ltac:(lia)) as (g & E & K & _). exists g. split; [exact E|]. intro. exact K.
    - exists zero. split; [reflexivity|]. intro. lia. }
  destruct F1 as (g1 & E1 & K2). rewrite E1. cbn [bind].
  assert (F2 : exists g, (if 0 <? params_s set 1 then do g <- ab_r1 bd STRIPE_IMAGE_SIZE m 392 0 w (params_s set 1) 0 g1; ab_r1 bd STRIPE_IMAGE_SIZE m 392 1 w (params_s set 1) 1 g else Some g1) = Some g /\
    held1 g 0 /\ held1 g 1 /\ held2 g 0).
  { destruct (Z.ltb_spec 0 (params_s set 1)) as [P|P].
    - destruct (ab_r1_ok 0 g1 P ltac:(lia)) as (g2 & E2 & K0 & _ & A2 & B2). change (0 mod 3) with 0 in E2. rewrite E2. cbn [bind].
      destruct (ab_r1_ok 1 g2 P ltac:(lia)) as (g3 & E3 & K1 & D & A3 & B3). change (1 mod 3) with 1 in E3. exists g3. split; [exact E3|].
      split; [intro; destruct (D (0 mod 3) ltac:(vm_compute; discriminate)) as [-> ->]; exact K0|]. split; [intro; exact K1|].
      unfold held2. rewrite A3, B3, A2, B2. exact K2.
    - exists g1. split; [reflexivity|]. split; [intro; lia|]. split; [intro; lia|exact K2]. }
  destruct F2 as (g2 & E2 & K0 & K1 & K2'). rewrite E2. cbn [bind].
  destruct (ofor_ind (fun k st => (2 * k <= h -> held1 (fst st) (2 * k) /\ held1 (fst st) (2 * k + 1)) /\ held2 (fst st) k /\
      (forall yy xx, yy < ch -> snd st yy xx = if rows_done (Z.min h (2 * k)) yy xx then target yy xx else out yy xx))
    0 ((h + 1) / 2) (fun k => stripe_pair bd set xqd0 xqd1 STRIPE_IMAGE_SIZE m 392 cdef x0 y0 w h (2 * k)) (g2, out)) as ([g' out'] & EO & _ & _ & RO).
  - apply Z.div_pos; lia.
  - cbn [fst snd]. split; [intro; split; assumption|]. split; [exact K2'|]. intros yy xx _. replace (Z.min h (2 * 0)) with 0 by lia.
    unfold rows_done. destruct (Z.leb_spec y0 yy); [|reflexivity]. destruct (Z.ltb_spec yy (y0 + 0)); [lia|]. reflexivity.
  - intros k [g3 o3] Hk (R1 & R2 & RO). cbn [fst snd] in *. assert (Hkh : 2 * k < h) by (clear - Hk; dlia).
    destruct (R1 ltac:(lia)) as [R0 R1']. replace (Z.min h (2 * k)) with (2 * k) in RO by lia.
    destruct (pair_ok k g3 o3 out ltac:(lia) Hkh R0 R1' R2 RO) as (g4 & o4 & E4 & S1 & S2 & SO).
    exists (g4, o4). split; [exact E4|]. cbn [fst snd]. replace (2 * (k + 1)) with (2 * k + 2) by lia.
    split; [intros Hle; replace (2 * k + 2 + 1) with (2 * k + 3) by lia; apply S1; exact Hle|]. split; [exact S2|exact SO].
  - rewrite EO. cbn [bind snd fst] in *. exists out'. split; [reflexivity|]. intros yy xx Hc. rewrite (RO yy xx Hc).
    replace (Z.min h (2 * ((h + 1) / 2))) with h; [reflexivity|]. clear. dlia.
Qed.
End Stripe.
