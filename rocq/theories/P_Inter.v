(** C57: inter prediction.  The encoder interpolates, averages and reads its reference frames
    as the AV1 specification says, for every motion vector, and it never reads outside
    the padded frame. *)
From Verif Require Import Base Inter_model Inter_proof.
From Verif Require Inter_spec.
Local Open Scope Z_scope.

Lemma block_pred_eq P bd cmp mode w h x y mvr mvc sx sy r c : sx = 0 \/ sx = 1 -> sy = 0 \/ sy = 1 ->
  let X := x + Z.shiftr mvc (3 + sx) in let Y := y + Z.shiftr mvr (3 + sy) in
  let R := fun y x => pl_at P (Inter_spec.Clip3 0 (pl_h P - 1) y) (Inter_spec.Clip3 0 (pl_w P - 1) x) in
  Inter_spec.block_pred bd cmp (pl_at P) (pl_w P - 1) (pl_h P - 1) mode mode w h (Inter_spec.startPos x mvc sx) (Inter_spec.startPos y mvr sy) r c =
  Inter_spec.Round2 (fir (Inter_spec.Subpel_Filters (Inter_spec.filterIdx mode h) (Z.land (Z.shiftl mvr (1 - sy)) 15)) (fun t =>
    Inter_spec.Round2 (fir (Inter_spec.Subpel_Filters (Inter_spec.filterIdx mode w) (Z.land (Z.shiftl mvc (1 - sx)) 15)) (fun u => R (Y - 3 + (r + t)) (X - 3 + c + u)))
      (Inter_spec.InterRound0 bd))) (Inter_spec.InterRound1 bd cmp).
Proof.
  intros Sx Sy. cbv zeta. unfold Inter_spec.block_pred. cbv zeta. destruct (start_row y mvr sy r Sy) as [-> ->]. f_equal. apply sum8_ext. intros t T. f_equal.
  unfold Inter_spec.intermediate. cbv zeta. destruct (start_pos x mvc sx c Sx) as [-> ->]. f_equal. apply sum8_ext. intros u U. f_equal. f_equal; f_equal.
  - pose proof (proj1 (start_pos y mvr sy 0 Sy)) as E. rewrite Z.mul_0_r, !Z.add_0_r in E. rewrite E. lia.
  - lia.
Qed.

Definition as_ref (rf : mvref) : Inter_spec.reference := (pl_at (fst rf), snd rf).
(* a reference plane of W x H samples of bd bits, with margins for a block of w x h *)
Definition ref_ok (bd W H w h : Z) (rf : mvref) : Prop :=
  pl_w (fst rf) = W /\ pl_h (fst rf) = H /\ plane_ok (fst rf) w h /\ (forall y x, 0 <= pl_at (fst rf) y x < 2 ^ bd).

(** The prediction equals the specification's: single and compound, every motion vector, every position.
    In particular the encoder's result is defined: no read falls outside the padded plane. *)
Theorem C57_predict bd tb sx sy mode W H x y w h r0 r1 r c :
  (bd = 8 \/ bd = 10 \/ bd = 12) -> bd <= tb -> (sx = 0 \/ sx = 1) -> (sy = 0 \/ sy = 1) ->
  In w [2; 4; 8; 16; 32; 64; 128] -> 0 < h -> h mod 2 = 0 -> agreeing mode w -> agreeing mode h ->
  ref_ok bd W H w h r0 -> (forall q, r1 = Some q -> ref_ok bd W H w h q) -> 0 <= r < h -> 0 <= c < w ->
  let p := Inter_spec.predict_inter bd sx sy mode mode (W - 1) (H - 1) x y w h (as_ref r0) (option_map as_ref r1) r c in
  predict_inter bd tb sx sy mode x y w h r0 r1 r c = Some p /\ 0 <= p < 2 ^ bd.
Proof.
  intros Hbd Htb Hsx Hsy Hw Hh Hh2 Ax Ay O0 O1 Hr Hc. cbv zeta.
  assert (FR : forall mv sub, 0 <= Z.land (Z.shiftl mv (1 - sub)) 15 < 16) by (intros mv sub; change 15 with (Z.ones 4); rewrite Z.land_ones by lia; apply Z.mod_pos_bound; lia).
  assert (S1 : forall rf, ref_ok bd W H w h rf -> single bd tb sx sy mode x y w h rf r c =
    Some (Inter_spec.Clip1 bd (Inter_spec.pred_from bd sx sy mode mode false (W - 1) (H - 1) x y w h (as_ref rf) r c))).
  { intros [P [mvr mvc]] (<- & <- & OK & HP). unfold Inter_spec.pred_from, single, get_mv_params, as_ref. cbn [fst snd] in *. rewrite block_pred_eq by assumption.
    apply (put_sound P w h OK (x + Z.shiftr mvc (3 + sx)) (y + Z.shiftr mvr (3 + sy)) bd tb _ _ mode); auto. }
  assert (S2 : forall rf, ref_ok bd W H w h rf -> prepared bd sx sy mode x y w h rf r c =
    Some (Inter_spec.pred_from bd sx sy mode mode true (W - 1) (H - 1) x y w h (as_ref rf) r c - bias bd)).
  { intros [P [mvr mvc]] (<- & <- & OK & HP). unfold Inter_spec.pred_from, prepared, get_mv_params, as_ref. cbn [fst snd] in *. rewrite block_pred_eq by assumption.
    apply (prep_sound P w h OK (x + Z.shiftr mvc (3 + sx)) (y + Z.shiftr mvr (3 + sy)) bd tb _ _ mode); auto. }
  assert (CL : forall v, 0 <= Inter_spec.Clip1 bd v < 2 ^ bd).
  { intros v. unfold Inter_spec.Clip1, Inter_spec.Clip3. clear - Hbd. pose proof (Z.pow_pos_nonneg 2 bd ltac:(lia) ltac:(lia)). destruct (Z.ltb_spec v 0), (Z.ltb_spec (2 ^ bd - 1) v); lia. }
  unfold predict_inter, Inter_spec.predict_inter. destruct r1 as [q|]; cbn [option_map].
  - rewrite (S2 r0 O0), (S2 q (O1 q eq_refl)). cbn [obind]. split; [|apply CL]. f_equal. destruct O0 as (_ & _ & _ & HP). apply (avg_sound (fst r0) w h 0 0 bd tb 0 0 mode Hbd Htb HP).
  - split; [apply S1; exact O0|apply CL].
Qed.

(** The margins the frame allocator leaves, LUMA_PADDING = 64 + 16 + 8 (src/frame/mod.rs 22-23), suffice for every block of
    a 64x64 superblock. *)
Theorem C57_margins P xdec ydec w h : (xdec = 0 \/ xdec = 1) -> (ydec = 0 \/ ydec = 1) ->
  1 <= pl_w P <= pl_cw P -> 1 <= pl_h P <= pl_ch P ->
  Z.shiftr 88 xdec <= pl_xo P -> Z.shiftr 88 ydec <= pl_yo P -> pl_cw P + Z.shiftr 88 xdec <= pl_right P -> pl_ch P + Z.shiftr 88 ydec <= pl_below P ->
  w <= Z.shiftr 64 xdec -> h <= Z.shiftr 64 ydec -> plane_ok P w h.
Proof.
  intros X Y W H A B C D E F.
  assert (Kx : exists p q, Z.shiftr 88 xdec = p /\ Z.shiftr 64 xdec = q /\ q + 7 <= p) by (clear - X; destruct X as [-> | ->]; [exists 88, 64|exists 44, 32]; repeat split; lia).
  assert (Ky : exists p q, Z.shiftr 88 ydec = p /\ Z.shiftr 64 ydec = q /\ q + 7 <= p) by (clear - Y; destruct Y as [-> | ->]; [exists 88, 64|exists 44, 32]; repeat split; lia).
  destruct Kx as (px & qx & K1 & K2 & Kx). destruct Ky as (py & qy & K3 & K4 & Ky). rewrite K1, K2, K3, K4 in *. clear K1 K2 K3 K4 X Y. destruct P. cbn in *. constructor; cbn; lia.
Qed.

(** The sharp filter is chosen differently for blocks of 4 samples or less (finding F28); the encoder
    always signals and uses the regular filter, src/encoder.rs 934. *)
Theorem C57_sharp_refuted : exists frac len t, 0 <= frac < 16 /\ 0 <= t < 8 /\
  tap (get_filter SHARP frac len) t <> Inter_spec.Subpel_Filters (Inter_spec.filterIdx SHARP len) frac t.
Proof. exists 8, 4, 2. split; [lia|]. split; [lia|]. vm_compute. discriminate. Qed.

(** ** Which blocks give the motion *)
(* a block of the partition: chroma of blocks below 8x8 only in 4:2:0 (src/encoder.rs 2666-2673) *)
Record block_ok (p sx sy bo_x bo_y bw bh pw ph : Z) : Prop := {
  b_plane : (p = 0 /\ sx = 0 /\ sy = 0) \/ 0 < p;
  b_subx : sx = 0 \/ sx = 1;
  b_suby : sy = 0 \/ sy = 1;
  b_size : In bw [4; 8; 16; 32; 64] /\ In bh [4; 8; 16; 32; 64] /\ (bw <= 2 * bh /\ bh <= 2 * bw);
  b_small : 0 < p -> bw = 4 \/ bh = 4 -> sx = 1 /\ sy = 1;
  b_pw : pw = Z.max 4 (Z.shiftr bw sx);
  b_ph : ph = Z.max 4 (Z.shiftr bh sy);
  b_pos : 0 <= bo_x /\ 0 <= bo_y;
  b_col : 0 < p -> if bw =? 4 then bo_x mod 2 = 1 else bo_x mod 2 = 0;     (* the block with chroma *)
  b_row : 0 < p -> if bh =? 4 then bo_y mod 2 = 1 else bo_y mod 2 = 0
}.
Definition in_frame (sx sy RowStart ColStart bo_x bo_y : Z) (k : Z * Z * (Z * Z) * (Z * Z)) : Inter_spec.call :=
  let '(x, y, (w, h), (dx, dy)) := k in
  Inter_spec.mkCall (4 * Z.shiftr ColStart sx + x) (4 * Z.shiftr RowStart sy + y) w h (RowStart + bo_y + dy) (ColStart + bo_x + dx).
Lemma call_eq x y w h r c x' y' w' h' r' c' : x = x' -> y = y' -> w = w' -> h = h' -> r = r' -> c = c' ->
  Inter_spec.mkCall x y w h r c = Inter_spec.mkCall x' y' w' h' r' c'.
Proof. congruence. Qed.
Lemma cons_eq A (a b : A) l m : a = b -> l = m -> a :: l = b :: m. Proof. congruence. Qed.
Ltac same_calls := repeat (apply cons_eq; [apply call_eq; clear; lia|]); reflexivity.
Lemma shift_halves a b : a mod 2 = 0 -> exists k m, a = 2 * k /\ b = 2 * m + b mod 2 /\ k = a / 2 /\ m = b / 2.
Proof. intros H. exists (a / 2), (b / 2). repeat split; dlia. Qed.
Theorem C57_calls p sx sy RowStart ColStart bo_x bo_y bw bh pw ph Intra :
  block_ok p sx sy bo_x bo_y bw bh pw ph -> RowStart mod 2 = 0 -> ColStart mod 2 = 0 ->
  let MiRow := RowStart + bo_y in let MiCol := ColStart + bo_x in
  (* the block itself is inter, and in a small one the blocks beside it are as long as it is *)
  Intra MiRow MiCol = false ->
  (bh = 4 -> bw = 8 -> Intra (MiRow - 1) (MiCol + 1) = Intra (MiRow - 1) MiCol /\ Intra MiRow (MiCol + 1) = false) ->
  (bw = 4 -> bh = 8 -> Intra (MiRow + 1) (MiCol - 1) = Intra MiRow (MiCol - 1) /\ Intra (MiRow + 1) MiCol = false) ->
  option_map (map (in_frame sx sy RowStart ColStart bo_x bo_y)) (compensate p sx sy bo_x bo_y bw bh pw ph (fun dx dy => Intra (MiRow + dy) (MiCol + dx))) =
    Some (Inter_spec.calls sx sy MiRow MiCol bw bh pw ph Intra).
Proof.
  intros B R2 C2. cbv zeta. intros I0 I8 I4. destruct B as [Bp Bx By (Bw & Bh & Br) Bs -> -> Bo Bc Bq].
  assert (Cs : (0 < p /\ sx = 1 /\ sy = 1 /\ ((bw = 4 /\ bh = 4) \/ (bw = 8 /\ bh = 4) \/ (bw = 4 /\ bh = 8))) \/ ((p = 0 \/ (8 <= bw /\ 8 <= bh)))).
  { cbn in Bw, Bh. destruct Bp as [[P0 _]|P0]; [right; left; exact P0|]. specialize (Bs P0). clear - P0 Bw Bh Br Bs. lia. }
  destruct Cs as [(P0 & -> & -> & Cs)|Cs].
  - specialize (Bc P0). specialize (Bq P0). unfold compensate. replace (0 <? p) with true by (clear - P0; lia). cbn [andb].
    destruct (shift_halves ColStart bo_x C2) as (a & b & EA & EB & _). destruct (shift_halves RowStart bo_y R2) as (d & e & ED & EE & _).
    assert (SA : Z.shiftr ColStart 1 = a) by (rewrite Z.shiftr_div_pow2 by discriminate; change (2 ^ 1) with 2; clear - EA; dlia).
    assert (SD : Z.shiftr RowStart 1 = d) by (rewrite Z.shiftr_div_pow2 by discriminate; change (2 ^ 1) with 2; clear - ED; dlia).
    unfold Inter_spec.calls, is_4x4, is_4x8, is_8x4. cbv zeta. rewrite !Z.shiftr_div_pow2, !Z.shiftl_mul_pow2 by discriminate. change (2 ^ 1) with 2.
    replace (ColStart / 2) with a by (clear - EA; dlia). replace (RowStart / 2) with d by (clear - ED; dlia). replace (bo_x / 2) with b by (clear - EB; dlia). replace (bo_y / 2) with e by (clear - EE; dlia).
    replace ((RowStart + bo_y) / 2) with (d + e) by (clear - ED EE; dlia). replace ((ColStart + bo_x) / 2) with (a + b) by (clear - EA EB; dlia).
    destruct Cs as [[-> ->]|[[-> ->]|[-> ->]]]; cbn [Z.eqb Pos.eqb andb orb] in Bc, Bq |- *; rewrite Bc in EB; rewrite Bq in EE.
    + change (Z.max 4 (4 / 2)) with 4. change (4 / 4 * 2) with 2. change (Inter_spec.upto 2) with [0; 1]. cbn [existsb]. rewrite !Z.add_0_r.
      replace ((d + e) * 2) with (RowStart + bo_y + -1) by (clear - ED EE; lia). replace ((a + b) * 2) with (ColStart + bo_x + -1) by (clear - EA EB; lia).
      replace (RowStart + bo_y + -1 + 1) with (RowStart + bo_y) by lia. replace (ColStart + bo_x + -1 + 1) with (ColStart + bo_x) by lia. rewrite I0.
      rewrite !orb_false_r. set (i1 := Intra (RowStart + bo_y) (ColStart + bo_x + -1)). set (i2 := Intra (RowStart + bo_y + -1) (ColStart + bo_x)). set (i3 := Intra (RowStart + bo_y + -1) (ColStart + bo_x + -1)).
      clearbody i1 i2 i3. change (4 / 2) with 2. change (4 / 4) with 1. 
      destruct i1, i2, i3; cbn [orb negb andb option_map]; change (4 / 4) with 1; change (4 / 2) with 2; change (Inter_spec.upto 1) with [0]; change (Inter_spec.upto 2) with [0; 1]; cbn [app map flat_map]; unfold in_frame, one; rewrite ?SA, ?SD; apply f_equal; same_calls.
    + destruct (I8 eq_refl eq_refl) as [J1 J2]. change (Z.max 4 (8 / 2)) with 4. change (Z.max 4 (4 / 2)) with 4. change (4 / 4 * 2) with 2. change (Inter_spec.upto 2) with [0; 1]. cbn [existsb]. rewrite !Z.add_0_r.
      replace ((d + e) * 2) with (RowStart + bo_y - 1) by (clear - ED EE; lia). replace ((a + b) * 2) with (ColStart + bo_x) by (clear - EA EB; lia).
      replace (RowStart + bo_y - 1 + 1) with (RowStart + bo_y) by lia. replace (RowStart + bo_y + -1) with (RowStart + bo_y - 1) by lia. rewrite I0, J1, J2.
      rewrite !orb_false_r. set (i2 := Intra (RowStart + bo_y - 1) (ColStart + bo_x)). clearbody i2. change (8 / 2) with 4. change (4 / 2) with 2. change (4 / 4) with 1. 
      destruct i2; cbn [orb negb andb option_map]; change (4 / 4) with 1; change (4 / 2) with 2; change (Inter_spec.upto 1) with [0]; change (Inter_spec.upto 2) with [0; 1]; cbn [app map flat_map]; unfold in_frame, one; rewrite ?SA, ?SD; apply f_equal; same_calls.
    + destruct (I4 eq_refl eq_refl) as [J1 J2]. change (Z.max 4 (8 / 2)) with 4. change (Z.max 4 (4 / 2)) with 4. change (4 / 4 * 2) with 2. change (Inter_spec.upto 2) with [0; 1]. cbn [existsb]. rewrite !Z.add_0_r.
      replace ((d + e) * 2) with (RowStart + bo_y) by (clear - ED EE; lia). replace ((a + b) * 2) with (ColStart + bo_x - 1) by (clear - EA EB; lia).
      replace (ColStart + bo_x - 1 + 1) with (ColStart + bo_x) by lia. replace (ColStart + bo_x + -1) with (ColStart + bo_x - 1) by lia. rewrite I0, J1, J2.
      rewrite !orb_false_r. set (i2 := Intra (RowStart + bo_y) (ColStart + bo_x - 1)). clearbody i2. change (8 / 2) with 4. change (4 / 2) with 2. change (4 / 4) with 1. 
      destruct i2; cbn [orb negb andb option_map]; change (4 / 4) with 1; change (4 / 2) with 2; change (Inter_spec.upto 1) with [0]; change (Inter_spec.upto 2) with [0; 1]; cbn [app map flat_map]; unfold in_frame, one; rewrite ?SA, ?SD; apply f_equal; same_calls.
  - (* one prediction for the block *)
    assert (E1 : compensate p sx sy bo_x bo_y bw bh (Z.max 4 (Z.shiftr bw sx)) (Z.max 4 (Z.shiftr bh sy)) (fun dx dy => Intra (RowStart + bo_y + dy) (ColStart + bo_x + dx)) =
      Some [one (Z.shiftr bo_x sx * 4) (Z.shiftr bo_y sy * 4) (Z.max 4 (Z.shiftr bw sx)) (Z.max 4 (Z.shiftr bh sy)) 0 0]).
    { unfold compensate, is_4x4, is_4x8, is_8x4. destruct Cs as [-> |[C1 C2']]; [reflexivity|]. replace (bw =? 4) with false by (clear - C1; lia). replace (bh =? 4) with false by (clear - C2'; lia). rewrite andb_false_r. cbn [andb orb]. destruct (0 <? p), (bw =? 8); reflexivity. }
    rewrite E1. cbn [option_map map]. f_equal.
    assert (Sw : Z.shiftr bw sx = Z.max 4 (Z.shiftr bw sx)).
    { rewrite Z.shiftr_div_pow2 by (clear - Bx; lia). cbn in Bw. destruct Bp as [(_ & -> & _)|Bp]; [change (2 ^ 0) with 1; rewrite Z.div_1_r; clear - Bw; lia|]. destruct Cs as [|[C1 _]]; [clear - H Bp; lia|]. clear - Bw C1 Bx. destruct Bx as [-> | ->]; [change (2 ^ 0) with 1|change (2 ^ 1) with 2]; dlia. }
    assert (Sh : Z.shiftr bh sy = Z.max 4 (Z.shiftr bh sy)).
    { rewrite Z.shiftr_div_pow2 by (clear - By; lia). cbn in Bh. destruct Bp as [(_ & _ & ->)|Bp]; [change (2 ^ 0) with 1; rewrite Z.div_1_r; clear - Bh; lia|]. destruct Cs as [|[_ C1]]; [clear - H Bp; lia|]. clear - Bh C1 By. destruct By as [-> | ->]; [change (2 ^ 0) with 1|change (2 ^ 1) with 2]; dlia. }
    assert (Cr : Z.shiftl (Z.shiftr (RowStart + bo_y) sy) sy = RowStart + bo_y /\ Z.shiftr (RowStart + bo_y) sy * 4 = 4 * Z.shiftr RowStart sy + Z.shiftr bo_y sy * 4).
    { assert (0 <= sy) by (clear - By; lia). rewrite !Z.shiftr_div_pow2, Z.shiftl_mul_pow2 by assumption. destruct By as [-> | ->]; [change (2 ^ 0) with 1; rewrite !Z.div_1_r; lia|]. change (2 ^ 1) with 2. destruct Bp as [(_ & _ & K)|Bp]; [discriminate K|].
      destruct Cs as [|[_ C1]]; [lia|]. specialize (Bq Bp). replace (bh =? 4) with false in Bq by lia. clear - Bq R2. dlia. }
    assert (Cc : Z.shiftl (Z.shiftr (ColStart + bo_x) sx) sx = ColStart + bo_x /\ Z.shiftr (ColStart + bo_x) sx * 4 = 4 * Z.shiftr ColStart sx + Z.shiftr bo_x sx * 4).
    { assert (0 <= sx) by (clear - Bx; lia). rewrite !Z.shiftr_div_pow2, Z.shiftl_mul_pow2 by assumption. destruct Bx as [-> | ->]; [change (2 ^ 0) with 1; rewrite !Z.div_1_r; lia|]. change (2 ^ 1) with 2. destruct Bp as [(_ & K & _)|Bp]; [discriminate K|].
      destruct Cs as [|[C1 _]]; [lia|]. specialize (Bc Bp). replace (bw =? 4) with false in Bc by lia. clear - Bc C2. dlia. }
    destruct Cr as [Cr1 Cr2], Cc as [Cc1 Cc2]. unfold Inter_spec.calls. cbv zeta. rewrite Cr1, Cr2, Cc1, Cc2, <- Sw, <- Sh.
    match goal with |- context [if ?b then _ else _] => replace (if b then (Z.shiftr bw sx, Z.shiftr bh sy, RowStart + bo_y, ColStart + bo_x) else (Z.shiftr bw sx, Z.shiftr bh sy, RowStart + bo_y, ColStart + bo_x)) with (Z.shiftr bw sx, Z.shiftr bh sy, RowStart + bo_y, ColStart + bo_x) by (destruct b; reflexivity) end.
    rewrite !Z.div_same by (clear - Sw Sh; lia). change (Inter_spec.upto 1) with [0]. cbn [flat_map map app]. unfold in_frame, one. same_calls.
Qed.

(** ** Concrete cases *)
Definition case_plane (k : Z) : plane := mkPlane (fun y x => (y * 13 + x * 29 + k * y * x) mod 1024) 40 24 40 24 88 88 128 112.
Definition case_r0 : mvref := (case_plane 1, (13, -27)).
Definition case_r1 : mvref := (case_plane 3, (-100, 400)).
Example case_single : predict_inter 10 16 0 0 REGULAR 8 8 8 8 case_r0 None 2 3 = Some 459 /\
  Inter_spec.predict_inter 10 0 0 REGULAR REGULAR 39 23 8 8 8 8 (as_ref case_r0) None 2 3 = 459.
Proof. vm_compute. auto. Qed.
Example case_compound : predict_inter 10 16 0 0 REGULAR 8 8 8 8 case_r0 (Some case_r1) 2 3 = Some 283 /\
  Inter_spec.predict_inter 10 0 0 REGULAR REGULAR 39 23 8 8 8 8 (as_ref case_r0) (Some (as_ref case_r1)) 2 3 = 283.
Proof. vm_compute. auto. Qed.
(* a vector far outside the frame *)
Example case_far : predict_inter 10 16 0 0 REGULAR 8 8 8 8 (case_plane 1, (-16000, 16001)) None 7 7 = Some 107. Proof. vm_compute. reflexivity. Qed.
Lemma case_ref_ok : ref_ok 10 40 24 8 8 case_r0.
Proof. split; [reflexivity|]. split; [reflexivity|]. split; [constructor; cbn; lia|]. intros y x. apply Z.mod_pos_bound. lia. Qed.
(* the last 4x4 of an 8x8 in 4:2:0, whose neighbours are all inter, and then with an intra one *)
Example case_calls : Inter_spec.calls 1 1 5 7 4 4 4 4 (fun _ _ => false) =
  [Inter_spec.mkCall 12 8 2 2 4 6; Inter_spec.mkCall 14 8 2 2 4 7; Inter_spec.mkCall 12 10 2 2 5 6; Inter_spec.mkCall 14 10 2 2 5 7] /\
  Inter_spec.calls 1 1 5 7 4 4 4 4 (fun r c => (r =? 4) && (c =? 6)) = [Inter_spec.mkCall 12 8 4 4 5 7].
Proof. vm_compute. auto. Qed.
Lemma case_block : block_ok 1 1 1 7 5 4 4 4 4.
Proof. constructor; cbn; try lia; auto. Qed.

Print Assumptions C57_predict.
Print Assumptions C57_margins.
Print Assumptions C57_calls.
Print Assumptions C57_sharp_refuted.
