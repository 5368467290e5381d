(** Inter prediction: the filters of the encoder against those of the specification. *)
From Verif Require Import Base Inter_model.
From Verif Require Inter_spec.
Local Open Scope Z_scope.

Lemma i16_id v : -32768 <= v < 32768 -> i16 v = v.
Proof. intros H. unfold i16. destruct (Z.ltb_spec (v mod 65536) 32768); dlia. Qed.
Lemma round_eq v n : 0 < n -> round_shift v n = Inter_spec.Round2 v n.
Proof. intros H. unfold round_shift, Inter_spec.Round2. replace (n =? 0) with false by lia. rewrite Z.shiftr_shiftl_l by lia. reflexivity. Qed.
Lemma round_div v n : 0 < n -> Inter_spec.Round2 v n = (v + 2 ^ (n - 1)) / 2 ^ n.
Proof. intros H. unfold Inter_spec.Round2. replace (n =? 0) with false by lia. rewrite Z.shiftr_div_pow2, Z.shiftl_mul_pow2, Z.mul_1_l by lia. reflexivity. Qed.

(** ** Filters *)
Definition zto (n : nat) : list Z := map Z.of_nat (seq 0 n).
Lemma in_zto n v : 0 <= v < Z.of_nat n -> In v (zto n).
Proof. intros H. unfold zto. apply in_map_iff. exists (Z.to_nat v). split; [lia|]. apply in_seq. lia. Qed.
(* the modes and sizes for which the choice of filter agrees *)
Definition agreeing (mode len : Z) : Prop := mode = REGULAR \/ mode = SMOOTH \/ mode = BILINEAR \/ (mode = SHARP /\ 4 < len).
Definition tap (l : list Z) (t : Z) : Z := nth (Z.to_nat t) l 0.
Lemma table_eq : forallb (fun f => forallb (fun p => forallb (fun t => tap (nth (Z.to_nat p) (nth (Z.to_nat f) SUBPEL_FILTERS []) []) t =? Inter_spec.Subpel_Filters f p t) (zto 8)) (zto 16)) (zto 6) = true.
Proof. vm_compute. reflexivity. Qed.
Definition pos_sum (f : Z -> Z) : Z := Inter_spec.sum8 (fun t => Z.max (f t) 0).
Definition neg_sum (f : Z -> Z) : Z := Inter_spec.sum8 (fun t => Z.max (- f t) 0).
Lemma table_gain : forallb (fun f => forallb (fun p => (pos_sum (Inter_spec.Subpel_Filters f p) - neg_sum (Inter_spec.Subpel_Filters f p) =? 128) && (neg_sum (Inter_spec.Subpel_Filters f p) <=? 56)) (zto 16)) (zto 6) = true.
Proof. vm_compute. reflexivity. Qed.
Lemma table_zero : forallb (fun f => forallb (fun t => Inter_spec.Subpel_Filters f 0 t =? if t =? 3 then 128 else 0) (zto 8)) (zto 6) = true.
Proof. vm_compute. reflexivity. Qed.
Lemma idx_range mode len : agreeing mode len -> 0 <= Inter_spec.filterIdx mode len < 6.
Proof. intros [-> |[-> |[-> |[-> H]]]]; unfold Inter_spec.filterIdx, REGULAR, SMOOTH, SHARP, BILINEAR; cbn [Z.eqb Pos.eqb orb]; destruct (len <=? 4) eqn:E; lia. Qed.
Lemma filter_eq mode frac len t : agreeing mode len -> 0 <= frac < 16 -> 0 <= t < 8 ->
  tap (get_filter mode frac len) t = Inter_spec.Subpel_Filters (Inter_spec.filterIdx mode len) frac t.
Proof.
  intros A F T. pose proof (idx_range mode len A) as R.
  assert (E : (if (mode =? BILINEAR) || (4 <? len) then mode else Z.min mode 1 + 4) = Inter_spec.filterIdx mode len).
  { unfold Inter_spec.filterIdx. destruct A as [-> |[-> |[-> |[-> H]]]]; unfold BILINEAR, REGULAR, SMOOTH, SHARP; cbn [Z.eqb Pos.eqb orb];
    destruct (Z.ltb_spec 4 len), (Z.leb_spec len 4); try lia; reflexivity. }
  unfold get_filter. rewrite E. pose proof table_eq as Q. rewrite forallb_forall in Q. specialize (Q _ (in_zto 6 _ R)). rewrite forallb_forall in Q. specialize (Q _ (in_zto 16 _ F)).
  rewrite forallb_forall in Q. specialize (Q _ (in_zto 8 _ T)). apply Z.eqb_eq in Q. exact Q.
Qed.
Lemma sum8_ext f g : (forall t, 0 <= t < 8 -> f t = g t) -> Inter_spec.sum8 f = Inter_spec.sum8 g.
Proof. intros H. unfold Inter_spec.sum8. rewrite !H by lia. reflexivity. Qed.
Lemma run_sound src l g : (forall i, 0 <= i < 8 -> src i = Some (g i)) -> run_filter src l = Some (Inter_spec.sum8 (fun t => tap l t * g t)).
Proof.
  intros H. unfold run_filter. cbn [seq fold_left obind]. rewrite (H (Z.of_nat 0)) by lia. cbn [obind]. rewrite (H (Z.of_nat 1)) by lia. cbn [obind]. rewrite (H (Z.of_nat 2)) by lia. cbn [obind].
  rewrite (H (Z.of_nat 3)) by lia. cbn [obind]. rewrite (H (Z.of_nat 4)) by lia. cbn [obind]. rewrite (H (Z.of_nat 5)) by lia. cbn [obind]. rewrite (H (Z.of_nat 6)) by lia. cbn [obind]. rewrite (H (Z.of_nat 7)) by lia. cbn [obind].
  f_equal. 
Qed.
Definition fir (f g : Z -> Z) : Z := Inter_spec.sum8 (fun t => f t * g t).
Lemma term_bound f v lo hi : lo <= v <= hi -> Z.max f 0 * lo - Z.max (- f) 0 * hi <= f * v <= Z.max f 0 * hi - Z.max (- f) 0 * lo.
Proof. intros H. destruct (Z.le_gt_cases 0 f); [rewrite (Z.max_l f), (Z.max_r (- f)) by lia|rewrite (Z.max_r f), (Z.max_l (- f)) by lia]; nia. Qed.
Lemma fir_bound i p g lo hi : 0 <= i < 6 -> 0 <= p < 16 -> lo <= hi -> (forall t, 0 <= t < 8 -> lo <= g t <= hi) ->
  128 * lo - 56 * (hi - lo) <= fir (Inter_spec.Subpel_Filters i p) g <= 128 * hi + 56 * (hi - lo).
Proof.
  intros I P L G. pose proof table_gain as Q. rewrite forallb_forall in Q. specialize (Q _ (in_zto 6 _ I)). rewrite forallb_forall in Q. specialize (Q _ (in_zto 16 _ P)).
  apply andb_prop in Q. destruct Q as [Q1 Q2]. apply Z.eqb_eq in Q1. apply Z.leb_le in Q2. set (f := Inter_spec.Subpel_Filters i p) in *. clearbody f.
  assert (B : pos_sum f * lo - neg_sum f * hi <= fir f g <= pos_sum f * hi - neg_sum f * lo).
  { unfold fir, pos_sum, neg_sum, Inter_spec.sum8.
    pose proof (term_bound (f 0) (g 0) lo hi (G 0 ltac:(lia))). pose proof (term_bound (f 1) (g 1) lo hi (G 1 ltac:(lia))). pose proof (term_bound (f 2) (g 2) lo hi (G 2 ltac:(lia))). pose proof (term_bound (f 3) (g 3) lo hi (G 3 ltac:(lia))).
    pose proof (term_bound (f 4) (g 4) lo hi (G 4 ltac:(lia))). pose proof (term_bound (f 5) (g 5) lo hi (G 5 ltac:(lia))). pose proof (term_bound (f 6) (g 6) lo hi (G 6 ltac:(lia))). pose proof (term_bound (f 7) (g 7) lo hi (G 7 ltac:(lia))).
    repeat match goal with |- context [Z.max ?a 0] => let m := fresh "m" in set (m := Z.max a 0) in *; clearbody m end. rewrite !Z.mul_add_distr_r. clear - H H0 H1 H2 H3 H4 H5 H6. lia. }
  assert (P2 : pos_sum f = 128 + neg_sum f) by lia. rewrite P2 in B. assert (neg_sum f * (hi - lo) <= 56 * (hi - lo)) by (apply Z.mul_le_mono_nonneg_r; lia). clear - B H. nia.
Qed.
Lemma fir_zero i g : 0 <= i < 6 -> fir (Inter_spec.Subpel_Filters i 0) g = 128 * g 3.
Proof.
  intros I. pose proof table_zero as Q. rewrite forallb_forall in Q. specialize (Q _ (in_zto 6 _ I)). rewrite forallb_forall in Q.
  assert (E : forall t, 0 <= t < 8 -> Inter_spec.Subpel_Filters i 0 t = if t =? 3 then 128 else 0) by (intros t T; apply Z.eqb_eq, Q, in_zto, T).
  unfold fir, Inter_spec.sum8. rewrite !E by lia. cbn [Z.eqb Pos.eqb]. lia.
Qed.
Lemma fir_scale f g k : fir f (fun t => k * g t) = k * fir f g.
Proof. unfold fir, Inter_spec.sum8. ring. Qed.
Lemma fir_ext f g g' : (forall t, 0 <= t < 8 -> g t = g' t) -> fir f g = fir f g'.
Proof. intros H. apply sum8_ext. intros t T. rewrite H by exact T. reflexivity. Qed.

(** ** Positions *)
Lemma start_eq pos mv sub : sub = 0 \/ sub = 1 -> Inter_spec.startPos pos mv sub = 64 * (16 * pos + (2 * mv) / 2 ^ sub) + 32.
Proof.
  intros S0. unfold Inter_spec.startPos. cbv zeta. rewrite (Z.shiftr_div_pow2 (2 * mv)) by lia. rewrite (Z.shiftl_mul_pow2 pos) by lia.
  change (Z.shiftl 1 3) with 8. change (Z.shiftl 1 14) with 16384. change (Z.shiftl 8 14) with (8 * 16384). change (Z.shiftl 1 6 / 2) with 32. change (14 + 4 - 10) with 8. change (2 ^ 4) with 16.
  set (q := (2 * mv) / 2 ^ sub). clearbody q. replace ((pos * 16 + q + 8) * 16384 - 8 * 16384) with (16384 * (16 * pos + q)) by ring. set (k := 16 * pos + q). clearbody k.
  unfold Inter_spec.Round2Signed. rewrite !round_div by lia. change (2 ^ (8 - 1)) with 128. change (2 ^ 8) with 256. destruct (Z.ltb_spec (16384 * k) 0); dlia.
Qed.
Lemma start_pos pos mv sub c : sub = 0 \/ sub = 1 -> 
  Z.shiftr (Inter_spec.startPos pos mv sub + Inter_spec.step * c) 10 = pos + Z.shiftr mv (3 + sub) + c /\
  Z.land (Z.shiftr (Inter_spec.startPos pos mv sub + Inter_spec.step * c) 6) 15 = Z.land (Z.shiftl mv (1 - sub)) 15.
Proof.
  intros S0. rewrite start_eq by exact S0. change Inter_spec.step with 1024. change 15 with (Z.ones 4). rewrite !Z.land_ones, !Z.shiftr_div_pow2, Z.shiftl_mul_pow2 by lia.
  change (2 ^ 10) with 1024. change (2 ^ 6) with 64. change (2 ^ 4) with 16. destruct S0 as [-> | ->]; cbn [Z.add Z.sub Z.opp Pos.add Z.pos_sub]; [change (2 ^ 0) with 1; change (2 ^ 3) with 8; change (2 ^ 1) with 2|change (2 ^ 1) with 2; change (2 ^ 4) with 16; change (2 ^ 0) with 1]; split; dlia.
Qed.
Lemma start_row pos mv sub r : sub = 0 \/ sub = 1 -> 
  Z.shiftr (Z.land (Inter_spec.startPos pos mv sub) 1023 + Inter_spec.step * r) 10 = r /\
  Z.land (Z.shiftr (Z.land (Inter_spec.startPos pos mv sub) 1023 + Inter_spec.step * r) 6) 15 = Z.land (Z.shiftl mv (1 - sub)) 15.
Proof.
  intros S0. rewrite start_eq by exact S0. change Inter_spec.step with 1024. change 15 with (Z.ones 4). change 1023 with (Z.ones 10). rewrite !Z.land_ones, !Z.shiftr_div_pow2, Z.shiftl_mul_pow2 by lia.
  change (2 ^ 10) with 1024. change (2 ^ 6) with 64. change (2 ^ 4) with 16. destruct S0 as [-> | ->]; cbn [Z.sub Z.opp Z.add Z.pos_sub]; [change (2 ^ 0) with 1; change (2 ^ 1) with 2|change (2 ^ 1) with 2; change (2 ^ 0) with 1]; split; dlia.
Qed.

(** ** Reading the padded plane *)
(* margins large enough for a block of w x h *)
Record plane_ok (P : plane) (w h : Z) : Prop := {
  ok_w : 1 <= pl_w P <= pl_cw P;
  ok_h : 1 <= pl_h P <= pl_ch P;
  ok_left : w + 7 <= pl_xo P;
  ok_top : h + 7 <= pl_yo P;
  ok_right : pl_cw P + w + 7 <= pl_right P;
  ok_below : pl_ch P + h + 7 <= pl_below P
}.
Lemma read_1d n cw o size q k : 1 <= n <= cw -> size + 7 <= o -> 0 <= k < size + 7 ->
  let s := Z.max (Z.min q cw) (- o) in - o <= s + k < cw + size + 7 /\ nearest n (s + k) = Inter_spec.Clip3 0 (n - 1) (q + k).
Proof. intros H1 H2 H3. cbv zeta. unfold nearest, Inter_spec.Clip3. destruct (Z.ltb_spec (q + k) 0), (Z.ltb_spec (n - 1) (q + k)); lia. Qed.
Section Block.
Variables (P : plane) (w h : Z).
Hypothesis OK : plane_ok P w h.
Variables (X Y : Z).                      (* the unclamped position *)
Let sx := Z.max (Z.min (X - 3) (pl_cw P)) (- pl_xo P) + 3.
Let sy := Z.max (Z.min (Y - 3) (pl_ch P)) (- pl_yo P) + 3.
Let R (y x : Z) : Z := pl_at P (Inter_spec.Clip3 0 (pl_h P - 1) y) (Inter_spec.Clip3 0 (pl_w P - 1) x).
Lemma read_ok r c : 0 <= r < h + 7 -> 0 <= c < w + 7 -> padded P (sy - 3 + r) (sx - 3 + c) = Some (R (Y - 3 + r) (X - 3 + c)).
Proof.
  intros Hr Hc. destruct OK as [O1 O2 O3 O4 O5 O6]. unfold padded, R, sx, sy. rewrite !Z.add_simpl_r.
  destruct (read_1d (pl_w P) (pl_cw P) (pl_xo P) w (X - 3) c O1 O3 Hc) as [A1 A2]. destruct (read_1d (pl_h P) (pl_ch P) (pl_yo P) h (Y - 3) r O2 O4 Hr) as [B1 B2].
  rewrite A2, B2. match goal with |- (if ?b then _ else _) = _ => replace b with true; [reflexivity|] end. symmetry. rewrite !andb_true_iff, !Z.leb_le, !Z.ltb_lt. clear - A1 B1 O5 O6. lia.
Qed.

(** ** The filters *)
Variables (bd tb cf rf mode : Z).
Hypotheses (Hbd : bd = 8 \/ bd = 10 \/ bd = 12) (Htb : bd <= tb) (Hcf : 0 <= cf < 16) (Hrf : 0 <= rf < 16).
Hypotheses (Hw : In w [2; 4; 8; 16; 32; 64; 128]) (Hh : 0 < h) (Hh2 : h mod 2 = 0).
Hypotheses (AX : agreeing mode w) (AY : agreeing mode h).
Hypothesis HP : forall y x, 0 <= pl_at P y x < 2 ^ bd.
Let fx := Inter_spec.Subpel_Filters (Inter_spec.filterIdx mode w) cf.
Let fy := Inter_spec.Subpel_Filters (Inter_spec.filterIdx mode h) rf.
Let I (r c : Z) : Z := Inter_spec.Round2 (fir fx (fun t => R (Y - 3 + r) (X - 3 + c + t))) (Inter_spec.InterRound0 bd).
Let pred (cmp : bool) (r c : Z) : Z := Inter_spec.Round2 (fir fy (fun t => I (r + t) c)) (Inter_spec.InterRound1 bd cmp).

Lemma size_good : size_ok w h = true.
Proof.
  unfold size_ok. apply andb_true_intro. split.
  - apply Z.eqb_eq. change 1 with (Z.ones 1). rewrite Z.land_ones by lia. exact Hh2.
  - apply existsb_exists. exists w. split; [exact Hw|apply Z.eqb_refl].
Qed.
Lemma R_range y x : 0 <= R y x <= 2 ^ bd - 1. Proof. pose proof (HP (Inter_spec.Clip3 0 (pl_h P - 1) y) (Inter_spec.Clip3 0 (pl_w P - 1) x)). unfold R. lia. Qed.
Lemma x_sum r c : 0 <= r < h + 7 -> 0 <= c < w ->
  run_filter (fun i => padded P (sy - 3 + r) (sx - 3 + c + i)) (get_filter mode cf w) = Some (fir fx (fun t => R (Y - 3 + r) (X - 3 + c + t))).
Proof.
  intros Hr Hc. rewrite (run_sound _ _ (fun t => R (Y - 3 + r) (X - 3 + c + t))).
  - f_equal. apply sum8_ext. intros t T. rewrite filter_eq by assumption. reflexivity.
  - intros i Hi. rewrite <- !(Z.add_assoc _ c i). rewrite read_ok by lia. reflexivity.
Qed.
Lemma y_sum r c : 0 <= r < h -> 0 <= c < w + 7 ->
  run_filter (fun i => padded P (sy - 3 + r + i) (sx - 3 + c)) (get_filter mode rf h) = Some (fir fy (fun t => R (Y - 3 + (r + t)) (X - 3 + c))).
Proof.
  intros Hr Hc. rewrite (run_sound _ _ (fun t => R (Y - 3 + (r + t)) (X - 3 + c))).
  - f_equal. apply sum8_ext. intros t T. rewrite filter_eq by assumption. reflexivity.
  - intros i Hi. rewrite <- (Z.add_assoc _ r i). rewrite read_ok by lia. reflexivity.
Qed.
Lemma fx_range r c : - (56 * (2 ^ bd - 1)) <= fir fx (fun t => R r (c + t)) <= 184 * (2 ^ bd - 1).
Proof. pose proof (fir_bound (Inter_spec.filterIdx mode w) cf (fun t => R r (c + t)) 0 (2 ^ bd - 1) (idx_range _ _ AX) Hcf) as K. pose proof (R_range r c). specialize (K ltac:(lia)). specialize (K ltac:(intros; apply R_range)). fold fx in K. lia. Qed.
Lemma bits : (bd = 12 /\ intermediate_bits bd = 2 /\ Inter_spec.InterRound0 bd = 5) \/ ((bd = 8 \/ bd = 10) /\ intermediate_bits bd = 4 /\ Inter_spec.InterRound0 bd = 3).
Proof. destruct Hbd as [-> |[-> | ->]]; [right|right|left]; repeat split; auto. Qed.
Definition i_lo : Z := if bd =? 8 then -1785 else -7166.
Definition i_hi : Z := if bd =? 8 then 5866 else 23547.
Lemma I_range r c : i_lo <= I r c <= i_hi.
Proof.
  pose proof (fx_range (Y - 3 + r) (X - 3 + c)) as K. unfold I. set (v := fir fx (fun t => R (Y - 3 + r) (X - 3 + c + t))) in *. clearbody v. unfold i_lo, i_hi, Inter_spec.InterRound0.
  rewrite round_div by (destruct Hbd as [-> |[-> | ->]]; cbn; lia). destruct Hbd as [-> |[-> | ->]]; cbn [Z.eqb Pos.eqb Z.sub Z.add Z.opp Z.pos_sub Pos.pred_double Pos.sub Pos.sub_mask]; clear - K.
  - change (2 ^ 8 - 1) with 255 in K. change (2 ^ 2) with 4. change (2 ^ 3) with 8. dlia.
  - change (2 ^ 10 - 1) with 1023 in K. change (2 ^ 2) with 4. change (2 ^ 3) with 8. dlia.
  - change (2 ^ 12 - 1) with 4095 in K. change (2 ^ 4) with 16. change (2 ^ 5) with 32. dlia.
Qed.
Lemma inter_row_eq r c : 0 <= r < h + 7 -> 0 <= c < w -> inter_row P sx sy w cf mode bd r c = Some (I r c).
Proof.
  intros Hr Hc. unfold inter_row. rewrite x_sum by assumption. cbn [obind]. f_equal. pose proof (I_range r c) as K.
  assert (E : round_shift (fir fx (fun t => R (Y - 3 + r) (X - 3 + c + t))) (7 - intermediate_bits bd) = I r c).
  { unfold I. rewrite round_eq by (destruct bits as [(_ & -> & _)|(_ & -> & _)]; lia). f_equal. destruct bits as [(_ & -> & ->)|(_ & -> & ->)]; reflexivity. }
  rewrite E. apply i16_id. unfold i_lo, i_hi in K. destruct (bd =? 8); lia.
Qed.
Lemma xy_sum r c : 0 <= r < h -> 0 <= c < w ->
  run_filter (fun i => inter_row P sx sy w cf mode bd (r + i) c) (get_filter mode rf h) = Some (fir fy (fun t => I (r + t) c)).
Proof.
  intros Hr Hc. rewrite (run_sound _ _ (fun t => I (r + t) c)).
  - f_equal. apply sum8_ext. intros t T. rewrite filter_eq by assumption. reflexivity.
  - intros i Hi. apply inter_row_eq; lia.
Qed.
Lemma I_zero r c : cf = 0 -> I r c = 2 ^ (7 - Inter_spec.InterRound0 bd) * R (Y - 3 + r) (X + c).
Proof.
  intros E. unfold I, fx. rewrite E, fir_zero by (apply idx_range; exact AX). replace (X - 3 + c + 3) with (X + c) by lia. set (v := R (Y - 3 + r) (X + c)). clearbody v. pose proof bits as Bt. clear - Bt.
  destruct Bt as [(_ & _ & ->)|(_ & _ & ->)]; rewrite round_div by lia; [change (2 ^ (5 - 1)) with 16; change (2 ^ 5) with 32; change (2 ^ (7 - 5)) with 4|change (2 ^ (3 - 1)) with 4; change (2 ^ 3) with 8; change (2 ^ (7 - 3)) with 16]; dlia.
Qed.
Lemma clip_eq v : clamp v 0 (max_sample_val bd) = Inter_spec.Clip1 bd v /\ 0 <= Inter_spec.Clip1 bd v < 2 ^ bd.
Proof.
  unfold clamp, max_sample_val, Inter_spec.Clip1, Inter_spec.Clip3. rewrite Z.shiftl_mul_pow2, Z.mul_1_l by (destruct Hbd as [-> |[-> | ->]]; lia). split; [reflexivity|].
  pose proof (Z.pow_pos_nonneg 2 bd ltac:(lia) ltac:(destruct Hbd as [-> |[-> | ->]]; lia)). destruct (Z.ltb_spec v 0), (Z.ltb_spec (2 ^ bd - 1) v); lia.
Qed.
Lemma cast_clip v : cast tb (clamp v 0 (max_sample_val bd)) = Inter_spec.Clip1 bd v.
Proof. destruct (clip_eq v) as [-> K]. unfold cast. apply Z.mod_small. assert (2 ^ bd <= 2 ^ tb) by (apply Z.pow_le_mono_r; lia). lia. Qed.
(* the vertical filter of a column without horizontal filter *)
Lemma fy_I0 r c : cf = 0 -> fir fy (fun t => I (r + t) c) = 2 ^ (7 - Inter_spec.InterRound0 bd) * fir fy (fun t => R (Y - 3 + (r + t)) (X + c)).
Proof. intros E. rewrite <- fir_scale. apply fir_ext. intros t T. apply I_zero. exact E. Qed.
Lemma fy_zero g : rf = 0 -> fir fy g = 128 * g 3.
Proof. intros E. unfold fy. rewrite E. apply fir_zero, idx_range, AY. Qed.

Theorem put_sound r c : 0 <= r < h -> 0 <= c < w ->
  put_8tap P sx sy w h cf rf mode mode bd tb r c = Some (Inter_spec.Clip1 bd (pred false r c)).
Proof.
  intros Hr Hc. unfold put_8tap. rewrite size_good. 
  destruct (Z.eqb_spec cf 0) as [C0|C0], (Z.eqb_spec rf 0) as [R0|R0]; cbn [andb].
  - replace (sy + r) with (sy - 3 + (r + 3)) by lia. replace (sx + c) with (sx - 3 + (c + 3)) by lia. rewrite read_ok by lia. f_equal.
    unfold pred. rewrite fy_I0, fy_zero by assumption. replace (Y - 3 + (r + 3)) with (Y + r) by lia. replace (X - 3 + (c + 3)) with (X + c) by lia.
    pose proof (R_range (Y + r) (X + c)) as K. set (v := R (Y + r) (X + c)) in *. clearbody v.
    assert (E : Inter_spec.Round2 (2 ^ (7 - Inter_spec.InterRound0 bd) * (128 * v)) (Inter_spec.InterRound1 bd false) = v).
    { clear - Hbd. destruct Hbd as [-> |[-> | ->]]; unfold Inter_spec.InterRound0, Inter_spec.InterRound1; cbn [Z.eqb Pos.eqb]; rewrite round_div by lia; 
        [change (2 ^ (7 - 3)) with 16; change (2 ^ (11 - 1)) with 1024; change (2 ^ 11) with 2048|change (2 ^ (7 - 3)) with 16; change (2 ^ (11 - 1)) with 1024; change (2 ^ 11) with 2048|change (2 ^ (7 - 5)) with 4; change (2 ^ (9 - 1)) with 256; change (2 ^ 9) with 512]; dlia. }
    rewrite E. unfold Inter_spec.Clip1, Inter_spec.Clip3. destruct (Z.ltb_spec v 0), (Z.ltb_spec (2 ^ bd - 1) v); lia.
  - replace (sx + c) with (sx - 3 + (c + 3)) by lia. rewrite y_sum by lia. cbn [obind]. rewrite cast_clip. do 2 f_equal. unfold pred. rewrite fy_I0 by assumption.
    replace (X - 3 + (c + 3)) with (X + c) by lia. set (v := fir fy (fun t => R (Y - 3 + (r + t)) (X + c))). clearbody v. rewrite round_eq, !round_div by (try lia; clear - Hbd; destruct Hbd as [-> |[-> | ->]]; cbn; lia).
    clear - Hbd. destruct Hbd as [-> |[-> | ->]]; unfold Inter_spec.InterRound0, Inter_spec.InterRound1; cbn [Z.eqb Pos.eqb]; change (2 ^ (7 - 1)) with 64; change (2 ^ 7) with 128;
        [change (2 ^ (7 - 3)) with 16; change (2 ^ (11 - 1)) with 1024; change (2 ^ 11) with 2048|change (2 ^ (7 - 3)) with 16; change (2 ^ (11 - 1)) with 1024; change (2 ^ 11) with 2048|change (2 ^ (7 - 5)) with 4; change (2 ^ (9 - 1)) with 256; change (2 ^ 9) with 512]; dlia.
  - replace (sy + r) with (sy - 3 + (r + 3)) by lia. rewrite x_sum by lia. cbn [obind]. rewrite cast_clip. do 2 f_equal. unfold pred. rewrite fy_zero by assumption. unfold I.
    set (v := fir fx (fun t => R (Y - 3 + (r + 3)) (X - 3 + c + t))). clearbody v. rewrite !round_eq by (clear - Hbd; destruct Hbd as [-> |[-> | ->]]; cbn; lia).
    clear - Hbd. destruct Hbd as [-> |[-> | ->]]; unfold Inter_spec.InterRound0, Inter_spec.InterRound1, intermediate_bits; cbn [Z.eqb Pos.eqb]; change (4 - 0) with 4; change (4 - 2) with 2; change (7 - 4) with 3; change (7 - 2) with 5.
    + set (u := Inter_spec.Round2 v 3). clearbody u. rewrite !round_div by lia. change (2 ^ (4 - 1)) with 8. change (2 ^ 4) with 16. change (2 ^ (11 - 1)) with 1024. change (2 ^ 11) with 2048. dlia.
    + set (u := Inter_spec.Round2 v 3). clearbody u. rewrite !round_div by lia. change (2 ^ (4 - 1)) with 8. change (2 ^ 4) with 16. change (2 ^ (11 - 1)) with 1024. change (2 ^ 11) with 2048. dlia.
    + set (u := Inter_spec.Round2 v 5). clearbody u. rewrite !round_div by lia. change (2 ^ (2 - 1)) with 2. change (2 ^ 2) with 4. change (2 ^ (9 - 1)) with 256. change (2 ^ 9) with 512. dlia.
  - rewrite xy_sum by lia. cbn [obind]. rewrite cast_clip. do 2 f_equal. unfold pred. rewrite round_eq by (clear - Hbd; destruct Hbd as [-> |[-> | ->]]; cbn; lia). f_equal.
    clear - Hbd. destruct Hbd as [-> |[-> | ->]]; reflexivity.
Qed.
(* what prep_8tap subtracts *)
Definition bias : Z := if bd =? 8 then 0 else 8192.
Lemma pred_range r c : -32768 <= pred true r c - bias < 32768.
Proof.
  pose proof (fir_bound (Inter_spec.filterIdx mode h) rf (fun t => I (r + t) c) i_lo i_hi (idx_range _ _ AY) Hrf) as K.
  specialize (K ltac:(unfold i_lo, i_hi; destruct (bd =? 8); lia) ltac:(intros; apply I_range)). fold fy in K. unfold pred. set (v := fir fy (fun t => I (r + t) c)) in *. clearbody v.
  cbn [Inter_spec.InterRound1]. rewrite round_div by lia. change (2 ^ (7 - 1)) with 64. change (2 ^ 7) with 128. clear - K. unfold i_lo, i_hi, bias in *. destruct (bd =? 8); dlia.
Qed.
Theorem prep_sound r c : 0 <= r < h -> 0 <= c < w -> prep_8tap P sx sy w h cf rf mode mode bd r c = Some (pred true r c - bias).
Proof.
  intros Hr Hc. unfold prep_8tap. rewrite size_good. pose proof (pred_range r c) as PR. change (prep_bias bd) with bias.
  destruct (Z.eqb_spec cf 0) as [C0|C0], (Z.eqb_spec rf 0) as [R0|R0]; cbn [andb].
  - replace (sy + r) with (sy - 3 + (r + 3)) by lia. replace (sx + c) with (sx - 3 + (c + 3)) by lia. rewrite read_ok by lia. cbn [obind]. f_equal.
    unfold pred in *. rewrite fy_I0, fy_zero in * by assumption. replace (Y - 3 + (r + 3)) with (Y + r) in * by lia. replace (X - 3 + (c + 3)) with (X + c) by lia.
    pose proof (R_range (Y + r) (X + c)) as K. set (v := R (Y + r) (X + c)) in *. clearbody v. cbn [Inter_spec.InterRound1] in *.
    assert (E : Inter_spec.Round2 (2 ^ (7 - Inter_spec.InterRound0 bd) * (128 * v)) 7 = Z.shiftl v (intermediate_bits bd) /\ 0 <= v <= 4095 /\ 0 <= Z.shiftl v (intermediate_bits bd) <= 16380 /\ -32768 <= bias < 32768).
    { unfold bias. clear - Hbd K. rewrite round_div by lia. rewrite Z.shiftl_mul_pow2 by (destruct Hbd as [-> |[-> | ->]]; cbn; lia). change (2 ^ (7 - 1)) with 64. change (2 ^ 7) with 128.
      destruct Hbd as [-> |[-> | ->]]; unfold Inter_spec.InterRound0, intermediate_bits, bias; cbn [Z.eqb Pos.eqb]; 
        [change (2 ^ (7 - 3)) with 16; change (2 ^ (4 - 0)) with 16; change (2 ^ 8 - 1) with 255 in K|change (2 ^ (7 - 3)) with 16; change (2 ^ (4 - 0)) with 16; change (2 ^ 10 - 1) with 1023 in K|change (2 ^ (7 - 5)) with 4; change (2 ^ (4 - 2)) with 4; change (2 ^ 12 - 1) with 4095 in K]; dlia. }
    destruct E as (E & V & S0 & B). rewrite E in *. rewrite (i16_id v), (i16_id (Z.shiftl v _)), (i16_id bias) by (clear - V S0 B; lia). apply i16_id. exact PR.
  - replace (sx + c) with (sx - 3 + (c + 3)) by lia. rewrite y_sum by lia. cbn [obind]. f_equal. rewrite <- (i16_id _ PR) at 1. f_equal. f_equal. unfold pred in *. rewrite fy_I0 in * by assumption.
    replace (X - 3 + (c + 3)) with (X + c) by lia. set (v := fir fy (fun t => R (Y - 3 + (r + t)) (X + c))). clearbody v. rewrite round_eq, !round_div by (try lia; clear - Hbd; destruct Hbd as [-> |[-> | ->]]; cbn; lia).
    clear - Hbd. destruct Hbd as [-> |[-> | ->]]; unfold Inter_spec.InterRound0, Inter_spec.InterRound1, intermediate_bits; cbn [Z.eqb Pos.eqb]; change (2 ^ (7 - 1)) with 64; change (2 ^ 7) with 128;
        [change (2 ^ (7 - 3)) with 16; change (2 ^ (7 - (4 - 0) - 1)) with 4; change (2 ^ (7 - (4 - 0))) with 8|change (2 ^ (7 - 3)) with 16; change (2 ^ (7 - (4 - 0) - 1)) with 4; change (2 ^ (7 - (4 - 0))) with 8|change (2 ^ (7 - 5)) with 4; change (2 ^ (7 - (4 - 2) - 1)) with 16; change (2 ^ (7 - (4 - 2))) with 32]; dlia.
  - replace (sy + r) with (sy - 3 + (r + 3)) by lia. rewrite x_sum by lia. cbn [obind]. f_equal. rewrite <- (i16_id _ PR) at 1. f_equal. f_equal. unfold pred in *. rewrite fy_zero in * by assumption. unfold I.
    set (v := fir fx (fun t => R (Y - 3 + (r + 3)) (X - 3 + c + t))). clearbody v. rewrite !round_eq by (clear - Hbd; destruct Hbd as [-> |[-> | ->]]; cbn; lia).
    assert (E : 7 - intermediate_bits bd = Inter_spec.InterRound0 bd) by (clear - Hbd; destruct Hbd as [-> |[-> | ->]]; reflexivity). rewrite E. set (u := Inter_spec.Round2 v (Inter_spec.InterRound0 bd)). clearbody u. cbn [Inter_spec.InterRound1].
    rewrite round_div by lia. change (2 ^ (7 - 1)) with 64. change (2 ^ 7) with 128. clear. dlia.
  - rewrite xy_sum by lia. cbn [obind]. f_equal. rewrite round_eq by lia. apply i16_id. exact PR.
Qed.
Lemma avg_sound a b : mc_avg (a - bias) (b - bias) bd tb = Inter_spec.Clip1 bd (Inter_spec.Round2 (a + b) (1 + Inter_spec.InterPostRound bd true)).
Proof.
  unfold mc_avg. cbv zeta. rewrite cast_clip. f_equal. rewrite round_eq by (clear - Hbd; destruct Hbd as [-> |[-> | ->]]; cbn; lia). f_equal.
  - unfold bias, PREP_BIAS. destruct (bd =? 8); lia.
  - clear - Hbd. destruct Hbd as [-> |[-> | ->]]; reflexivity.
Qed.
End Block.
