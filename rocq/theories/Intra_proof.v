(** Intra prediction: every mode of the model is that of the specification. *)
From Verif Require Import Base Edge_model Intra_model Intra_edge Intra_dir.
From Verif Require Intra_spec.
Local Open Scope Z_scope.

Definition tmode (m : pmode) : Intra_spec.mode :=
  match m with
  | DC_PRED => Intra_spec.DC | V_PRED => Intra_spec.V | H_PRED => Intra_spec.H | D45_PRED => Intra_spec.D45 | D135_PRED => Intra_spec.D135
  | D113_PRED => Intra_spec.D113 | D157_PRED => Intra_spec.D157 | D203_PRED => Intra_spec.D203 | D67_PRED => Intra_spec.D67
  | SMOOTH_PRED => Intra_spec.SMOOTH | SMOOTH_V_PRED => Intra_spec.SMOOTH_V | SMOOTH_H_PRED => Intra_spec.SMOOTH_H
  | PAETH_PRED => Intra_spec.PAETH | UV_CFL_PRED => Intra_spec.UV_CFL
  end.

(** ** Sums *)
Lemma sum_ext f g n : (forall k, 0 <= k < Z.of_nat n -> f k = g k) -> Intra_spec.sum f n = Intra_spec.sum g n.
Proof. induction n as [|n IH]; intros H; [reflexivity|]. cbn [Intra_spec.sum]. rewrite IH by (intros; apply H; lia). rewrite H by lia. reflexivity. Qed.
Lemma sum_bounds f n M : (forall k, 0 <= k < Z.of_nat n -> 0 <= f k <= M) -> 0 <= Intra_spec.sum f n <= Z.of_nat n * M.
Proof.
  induction n as [|n IH]; intros H; [cbn; lia|]. cbn [Intra_spec.sum]. specialize (IH ltac:(intros; apply H; lia)). specialize (H (Z.of_nat n) ltac:(lia)).
  rewrite Nat2Z.inj_succ, Z.mul_succ_l. lia.
Qed.
Lemma sum_first f n : Intra_spec.sum f (S n) = f 0 + Intra_spec.sum (fun k => f (k + 1)) n.
Proof. induction n as [|n IH]; [cbn; lia|]. change (Intra_spec.sum f (S (S n))) with (Intra_spec.sum f (S n) + f (Z.of_nat (S n))). rewrite IH. cbn [Intra_spec.sum]. replace (Z.of_nat (S n)) with (Z.of_nat n + 1) by lia. lia. Qed.
Lemma sum_rev f n : Intra_spec.sum (fun k => f (Z.of_nat n - 1 - k)) n = Intra_spec.sum f n.
Proof.
  induction n as [|n IH]; [reflexivity|]. rewrite sum_first. cbn [Intra_spec.sum]. rewrite <- IH. replace (Z.of_nat (S n) - 1 - 0) with (Z.of_nat n) by lia.
  rewrite (sum_ext (fun k => f (Z.of_nat (S n) - 1 - (k + 1))) (fun k => f (Z.of_nat n - 1 - k))); [lia|]. intros k Hk. f_equal. lia.
Qed.
Lemma fold_acc (f : nat -> Z) l a : fold_left (fun acc i => f i + acc) l a = a + fold_left (fun acc i => f i + acc) l 0.
Proof. revert a. induction l as [|x l IH]; intros a; cbn [fold_left]; [lia|]. rewrite IH, (IH (f x + 0)). lia. Qed.
Lemma fold_sum_eq s : fold_sum s = Intra_spec.sum (s_at s) (Z.to_nat (s_len s)).
Proof.
  unfold fold_sum. induction (Z.to_nat (s_len s)) as [|n IH]; [reflexivity|]. rewrite seq_S, fold_left_app, IH. cbn [fold_left Intra_spec.sum Nat.add]. lia.
Qed.

(** ** Division by powers of two, and averages *)
Definition sizes : list Z := [4; 8; 16; 32; 64].
Lemma size_range n : In n sizes -> 4 <= n <= 64.
Proof. unfold sizes. cbn. lia. Qed.
Lemma size_shr n v : In n sizes -> Z.shiftr v (Z.log2 n) = v / n.
Proof. intros H. rewrite Z.shiftr_div_pow2 by apply Z.log2_nonneg. f_equal. cbn in H. destruct H as [<-|[<-|[<-|[<-|[<-|[]]]]]]; reflexivity. Qed.
Lemma avg_range n s M : 0 < n -> 0 <= s <= n * (M - 1) -> 0 <= (s + Z.shiftr n 1) / n < M.
Proof.
  intros Hn Hs. rewrite Z.shiftr_div_pow2 by lia. change (2 ^ 1) with 2. assert (0 <= n / 2 < n) by dlia. split; [apply Z.div_pos; lia|apply Z.div_lt_upper_bound; lia].
Qed.
Lemma weights_eq n k : In n sizes -> 0 <= k < n -> sm_weight n k = Some (Intra_spec.Sm_Weights n k) /\ 0 <= Intra_spec.Sm_Weights n k <= 256.
Proof.
  intros Hn Hk.
  assert (K : forallb (fun n => forallb (fun k => let k := Z.of_nat k in match sm_weight n k with Some v => (v =? Intra_spec.Sm_Weights n k) && (0 <=? v) && (v <=? 256) | None => false end) (seq 0 (Z.to_nat n))) sizes = true) by (vm_compute; reflexivity).
  rewrite forallb_forall in K. specialize (K n Hn). rewrite forallb_forall in K. specialize (K (Z.to_nat k) ltac:(apply in_seq; lia)). cbv zeta in K. rewrite Z2Nat.id in K by lia.
  destruct (sm_weight n k); [|discriminate]. apply andb_prop in K. destruct K as [K K3]. apply andb_prop in K. destruct K as [K1 K2]. apply Z.eqb_eq in K1. subst z. split; [reflexivity|lia].
Qed.
Lemma sane n : In n sizes -> sm_sane n = true.
Proof. intros H. cbn in H. destruct H as [<-|[<-|[<-|[<-|[<-|[]]]]]]; reflexivity. Qed.
Lemma mix2_range bd a b w : inr bd a -> inr bd b -> 0 <= w <= 256 -> 0 <= w * a + (256 - w) * b <= 256 * (2 ^ bd - 1).
Proof. unfold inr. set (M := 2 ^ bd). clearbody M. intros. nia. Qed.
Lemma shr_range v n M : 0 <= n -> 1 <= M -> 0 <= v <= 2 ^ n * (M - 1) -> 0 <= Z.shiftr (v + Z.shiftl 1 (n - 1)) n < M \/ n = 0.
Proof.
  intros Hn HM H. destruct (Z.eq_dec n 0); [auto|left]. rewrite Z.shiftr_div_pow2, Z.shiftl_mul_pow2 by lia.
  assert (E : 2 ^ n = 2 * 2 ^ (n - 1)) by (rewrite <- Z.pow_succ_r by lia; f_equal; lia). pose proof (Z.pow_pos_nonneg 2 (n - 1) ltac:(lia) ltac:(lia)).
  split; [apply Z.div_pos; nia|apply Z.div_lt_upper_bound; nia].
Qed.

Section Modes.
Variables (tb bd w h : Z).
Hypotheses (Hbd : 8 <= bd <= tb) (Hw : In w sizes) (Hh : In h sizes).
Variables (Above Left : Z -> Z) (hl ha : bool).
Hypothesis HA : forall p, -1 <= p -> inr bd (Above p).
Hypothesis HL : forall p, -1 <= p -> inr bd (Left p).
Hypothesis Hc : Left (-1) = Above (-1).
Hypothesis HF : filled bd Above Left hl ha.
(* slices with the first samples *)
Definition holds_above (s : slice) : Prop := w <= s_len s /\ forall k, 0 <= k < w -> s_at s k = Above k.
Definition holds_left (s : slice) : Prop := s_len s = h /\ forall k, 0 <= k < h -> s_at s (h - 1 - k) = Left k.

Lemma cast_in v : inr bd v -> cast tb v = v.
Proof. intros H. apply (cast_id tb bd); [lia|exact H]. Qed.
Lemma bdp : 1 <= 2 ^ bd.
Proof. pose proof (Z.pow_pos_nonneg 2 bd). lia. Qed.
Lemma above_sum a : holds_above a -> take w a = Some (mkSlice w (s_at a)) /\ fold_sum (mkSlice w (s_at a)) = Intra_spec.sum Above (Z.to_nat w).
Proof.
  intros [L V]. pose proof (size_range w Hw). unfold take, guard. replace (w <=? s_len a) with true by lia. split; [reflexivity|]. rewrite fold_sum_eq. cbn [s_at s_len]. apply sum_ext. intros k Hk. apply V. lia.
Qed.
Lemma left_sum l : holds_left l -> take h l = Some (mkSlice h (s_at l)) /\ fold_sum (mkSlice h (s_at l)) = Intra_spec.sum Left (Z.to_nat h) /\ fold_sum l = Intra_spec.sum Left (Z.to_nat h).
Proof.
  intros [L V]. pose proof (size_range h Hh). unfold take, guard. replace (h <=? s_len l) with true by lia. split; [reflexivity|]. rewrite !fold_sum_eq. cbn [s_at s_len]. rewrite L.
  assert (E : Intra_spec.sum (s_at l) (Z.to_nat h) = Intra_spec.sum Left (Z.to_nat h)); [|auto].
  rewrite <- (sum_rev Left). apply sum_ext. intros k Hk. rewrite Z2Nat.id in * by lia. rewrite <- V by lia. f_equal. lia.
Qed.
Lemma sumA_range : 0 <= Intra_spec.sum Above (Z.to_nat w) <= w * (2 ^ bd - 1).
Proof. pose proof (size_range w Hw). pose proof (sum_bounds Above (Z.to_nat w) (2 ^ bd - 1)) as K. rewrite Z2Nat.id in K by lia. apply K. intros k Hk. pose proof (HA k ltac:(lia)). unfold inr in *. lia. Qed.
Lemma sumL_range : 0 <= Intra_spec.sum Left (Z.to_nat h) <= h * (2 ^ bd - 1).
Proof. pose proof (size_range h Hh). pose proof (sum_bounds Left (Z.to_nat h) (2 ^ bd - 1)) as K. rewrite Z2Nat.id in K by lia. apply K. intros k Hk. pose proof (HL k ltac:(lia)). unfold inr in *. lia. Qed.
Lemma dc_sound x y a l : hl = negb (x =? 0) -> ha = negb (y =? 0) -> (ha = true -> holds_above a) -> (hl = true -> holds_left l) ->
  dc_variant tb bd w h x y a l = Some (Intra_spec.dc_pred bd w h hl ha Above Left) /\ inr bd (Intra_spec.dc_pred bd w h hl ha Above Left).
Proof.
  intros Ex Ey SA SL. pose proof (size_range w Hw). pose proof (size_range h Hh). pose proof sumA_range as RA. pose proof sumL_range as RL.
  unfold dc_variant, Intra_spec.dc_pred.
  destruct (x =? 0), (y =? 0); cbn [negb] in *; rewrite Ex, Ey in *; cbn [andb].
  - assert (I : inr bd (2 ^ (bd - 1))). { unfold inr. assert (2 ^ bd = 2 * 2 ^ (bd - 1)) by (rewrite <- Z.pow_succ_r by lia; f_equal; lia). pose proof (Z.pow_pos_nonneg 2 (bd - 1)). lia. }
    split; [|exact I]. unfold pred_dc_128. f_equal. replace (Z.shiftl 128 (bd - 8)) with (2 ^ (bd - 1)); [apply cast_in, I|].
    rewrite Z.shiftl_mul_pow2 by lia. change 128 with (2 ^ 7). rewrite <- Z.pow_add_r by lia. f_equal. lia.
  - destruct (above_sum a (SA eq_refl)) as [T F]. unfold pred_dc_top. rewrite T. cbn [obind]. rewrite F, size_shr by exact Hw.
    assert (I : inr bd ((Intra_spec.sum Above (Z.to_nat w) + Z.shiftr w 1) / w)) by (apply avg_range; lia). rewrite cast_in by exact I. auto.
  - destruct (left_sum l (SL eq_refl)) as (T & F & F'). unfold pred_dc_left. rewrite F', size_shr by exact Hh.
    assert (I : inr bd ((Intra_spec.sum Left (Z.to_nat h) + Z.shiftr h 1) / h)) by (apply avg_range; lia). rewrite cast_in by exact I. auto.
  - destruct (above_sum a (SA eq_refl)) as [T F]. destruct (left_sum l (SL eq_refl)) as (T' & F' & _). unfold pred_dc. rewrite T, T'. cbn [obind]. rewrite F, F'.
    replace (Intra_spec.sum Above (Z.to_nat w) + Intra_spec.sum Left (Z.to_nat h)) with (Intra_spec.sum Left (Z.to_nat h) + Intra_spec.sum Above (Z.to_nat w)) by lia.
    assert (I : inr bd ((Intra_spec.sum Left (Z.to_nat h) + Intra_spec.sum Above (Z.to_nat w) + Z.shiftr (w + h) 1) / (w + h))) by (apply avg_range; [lia|]; clear - RA RL; lia).
    rewrite cast_in by exact I. auto.
Qed.
Section Pixel.
Variables (a l : slice) (i j : Z).
Hypotheses (Hi : 0 <= i < h) (Hj : 0 <= j < w).
Lemma rd_above k : holds_above a -> 0 <= k < w -> rd a k = Some (Above k).
Proof. intros [L V] Hk. rewrite rd_some by lia. rewrite V by lia. reflexivity. Qed.
Lemma rd_left k : holds_left l -> 0 <= k < h -> rd l (h - 1 - k) = Some (Left k).
Proof. intros [L V] Hk. rewrite rd_some by lia. rewrite V by lia. reflexivity. Qed.
Lemma v_sound : holds_above a -> pred_v w a j = Some (Above j).
Proof. intros S. unfold pred_v. rewrite (proj1 (above_sum a S)). cbn [obind]. rewrite rd_some by (cbn; lia). cbn [s_at]. f_equal. apply S. lia. Qed.
Lemma h_sound : holds_left l -> pred_h h l i = Some (Left i).
Proof. intros S. unfold pred_h. rewrite (proj1 (left_sum l S)). cbn [obind]. rewrite rd_some by (cbn; lia). cbn [s_at]. f_equal. apply S. lia. Qed.
Lemma paeth_range : inr bd (Intra_spec.paeth_pred Above Left i j).
Proof. unfold Intra_spec.paeth_pred. cbv zeta. match goal with |- context [if ?c then _ else if ?d then _ else _] => destruct c, d end; first [apply HA; lia|apply HL; lia]. Qed.
Lemma paeth_sound : holds_above a -> holds_left l -> pred_paeth tb h a l (Above (-1)) i j = Some (Intra_spec.paeth_pred Above Left i j).
Proof.
  intros SA SL. unfold pred_paeth. rewrite (rd_left i) by auto. rewrite (rd_above j) by auto. cbn [obind].
  f_equal. exact (cast_in _ paeth_range).
Qed.
Lemma smooth_sound : holds_above a -> holds_left l ->
  pred_smooth tb w h a l i j = Some (Intra_spec.smooth_pred w h Above Left i j) /\ inr bd (Intra_spec.smooth_pred w h Above Left i j).
Proof.
  intros SA SL. pose proof (size_range w Hw). pose proof (size_range h Hh). pose proof bdp. unfold pred_smooth.
  replace 0 with (h - 1 - (h - 1)) at 1 by lia. rewrite (rd_left (h - 1)) by (auto; lia). rewrite (rd_above (w - 1)) by (auto; lia). rewrite (rd_left i), (rd_above j) by auto. cbn [obind].
  unfold guard. rewrite (sane w Hw), (sane h Hh). cbn [andb]. destruct (weights_eq h i Hh Hi) as [E1 B1]. destruct (weights_eq w j Hw Hj) as [E2 B2]. rewrite E1, E2. cbn [obind].
  unfold Intra_spec.smooth_pred. set (w1 := Intra_spec.Sm_Weights h i) in *. set (w2 := Intra_spec.Sm_Weights w j) in *. unfold Intra_spec.Round2. cbn [Z.eqb].
  pose proof (mix2_range bd (Above j) (Left (h - 1)) w1 (HA j ltac:(lia)) (HL (h - 1) ltac:(lia)) B1) as M1.
  pose proof (mix2_range bd (Left i) (Above (w - 1)) w2 (HL i ltac:(lia)) (HA (w - 1) ltac:(lia)) B2) as M2.
  assert (I : inr bd (Z.shiftr (w1 * Above j + (256 - w1) * Left (h - 1) + w2 * Left i + (256 - w2) * Above (w - 1) + Z.shiftl 1 (9 - 1)) 9)).
  { edestruct (shr_range (w1 * Above j + (256 - w1) * Left (h - 1) + w2 * Left i + (256 - w2) * Above (w - 1)) 9 (2 ^ bd)) as [Q|Q]; [lia|lia| |exact Q|discriminate].
    change (2 ^ 9) with 512. clear - M1 M2. lia. }
  rewrite cast_in by exact I. auto.
Qed.
Lemma smooth_v_sound : holds_above a -> holds_left l ->
  pred_smooth_v tb h a l i j = Some (Intra_spec.smooth_v_pred h Above Left i j) /\ inr bd (Intra_spec.smooth_v_pred h Above Left i j).
Proof.
  intros SA SL. pose proof (size_range w Hw). pose proof (size_range h Hh). pose proof bdp. unfold pred_smooth_v.
  replace 0 with (h - 1 - (h - 1)) at 1 by lia. rewrite (rd_left (h - 1)) by (auto; lia). rewrite (rd_above j) by auto. cbn [obind].
  unfold guard. rewrite (sane h Hh). destruct (weights_eq h i Hh Hi) as [E1 B1]. rewrite E1. cbn [obind].
  unfold Intra_spec.smooth_v_pred. set (w1 := Intra_spec.Sm_Weights h i) in *. unfold Intra_spec.Round2. cbn [Z.eqb].
  pose proof (mix2_range bd (Above j) (Left (h - 1)) w1 (HA j ltac:(lia)) (HL (h - 1) ltac:(lia)) B1) as M1.
  assert (I : inr bd (Z.shiftr (w1 * Above j + (256 - w1) * Left (h - 1) + Z.shiftl 1 (8 - 1)) 8)).
  { edestruct (shr_range (w1 * Above j + (256 - w1) * Left (h - 1)) 8 (2 ^ bd)) as [Q|Q]; [lia|lia| |exact Q|discriminate]. exact M1. }
  rewrite cast_in by exact I. auto.
Qed.
Lemma smooth_h_sound : holds_above a -> holds_left l ->
  pred_smooth_h tb w h a l i j = Some (Intra_spec.smooth_h_pred w Above Left i j) /\ inr bd (Intra_spec.smooth_h_pred w Above Left i j).
Proof.
  intros SA SL. pose proof (size_range w Hw). pose proof (size_range h Hh). pose proof bdp. unfold pred_smooth_h.
  rewrite (rd_above (w - 1)) by (auto; lia). rewrite (rd_left i) by auto. cbn [obind].
  unfold guard. rewrite (sane w Hw). destruct (weights_eq w j Hw Hj) as [E1 B1]. rewrite E1. cbn [obind].
  unfold Intra_spec.smooth_h_pred. set (w1 := Intra_spec.Sm_Weights w j) in *. unfold Intra_spec.Round2. cbn [Z.eqb].
  pose proof (mix2_range bd (Left i) (Above (w - 1)) w1 (HL i ltac:(lia)) (HA (w - 1) ltac:(lia)) B1) as M1.
  assert (I : inr bd (Z.shiftr (w1 * Left i + (256 - w1) * Above (w - 1) + Z.shiftl 1 (8 - 1)) 8)).
  { edestruct (shr_range (w1 * Left i + (256 - w1) * Above (w - 1)) 8 (2 ^ bd)) as [Q|Q]; [lia|lia| |exact Q|discriminate]. exact M1. }
  rewrite cast_in by exact I. auto.
Qed.
End Pixel.

(** What the encoder puts in place of Paeth when an edge is missing. *)
Lemma paeth_missing i j : 0 <= i -> 0 <= j ->
  (ha = false -> hl = false -> Intra_spec.paeth_pred Above Left i j = 2 ^ (bd - 1)) /\
  (ha = true -> hl = false -> Intra_spec.paeth_pred Above Left i j = Above j) /\
  (ha = false -> hl = true -> Intra_spec.paeth_pred Above Left i j = Left i).
Proof.
  intros Hi Hj. destruct HF as (F1 & F2 & F3). unfold Intra_spec.paeth_pred. cbv zeta. repeat split; intros E1 E2.
  - destruct (F3 E1 E2) as [F4 F5]. destruct (F5 i Hi) as [_ F6]. destruct (F5 j Hj) as [F7 _]. rewrite F4, F6, F7.
    replace (2 ^ (bd - 1) - 1 + (2 ^ (bd - 1) + 1) - 2 ^ (bd - 1)) with (2 ^ (bd - 1)) by lia.
    match goal with |- (if ?c then _ else if ?d then _ else _) = _ => replace c with false by lia; replace d with false by lia end. reflexivity.
  - specialize (F2 E2 E1). rewrite (F2 i) by lia. rewrite <- Hc, (F2 (-1)) by lia.
    match goal with |- (if ?c then _ else if ?d then _ else _) = _ => destruct c eqn:C; [|replace d with true by lia; reflexivity] end. lia.
  - specialize (F1 E1 E2). rewrite (F1 j), (F1 (-1)) by lia.
    match goal with |- (if ?c then _ else _) = _ => replace c with true by lia end. reflexivity.
Qed.

(** ** All modes *)
Variables (mode : pmode) (delta x y rw rh : Z) (ef sm : bool) (e : edges).
Let nd := edge_needs mode delta x y ef.
Hypotheses (Hdelta : -3 <= delta <= 3) (Hdelta0 : is_directional mode = false -> delta = 0).
Hypotheses (Hhl : hl = negb (x =? 0)) (Hha : ha = negb (y =? 0)) (Hrw : 0 <= rw) (Hrh : 0 <= rh).
Hypothesis Ena : e_na e = (if n_top nd then w else 0) + (if n_topright nd then h else 0).
Hypothesis Enl : e_nl e = (if n_left nd then h else 0) + (if n_bottomleft nd then w else 0).
Hypothesis Va : forall k, 0 <= k < e_na e -> e_above e k = Above k.
Hypothesis Vl : forall k, 0 <= k < e_nl e -> e_left e k = Left k.
Hypothesis Vc : e_corner e = if n_topleft nd then
    if n_filter nd && (24 <=? w + h) then Z.shiftr (Left 0 * 5 + Above (-1) * 6 + Above 0 * 5 + 8) 4 else Above (-1)
  else 2 ^ (bd - 1).

Lemma have_above_slice : n_top nd = true -> holds_above (above_of e).
Proof. intros N. rewrite N in Ena. pose proof (size_range h Hh). split; cbn [above_of s_len s_at]; [destruct (n_topright nd); lia|]. intros k Hk. apply Va. destruct (n_topright nd); lia. Qed.
Lemma have_left_slice : n_left nd = true -> holds_left (last_of h (left_of e)).
Proof.
  intros N. rewrite N in Enl. pose proof (size_range w Hw). pose proof (size_range h Hh). unfold last_of, left_of. cbn [s_len s_at].
  assert (M : h <= e_nl e) by (destruct (n_bottomleft nd); lia). replace (Z.max 0 (e_nl e - h)) with (e_nl e - h) by lia.
  split; cbn [s_len s_at]; [lia|]. intros k Hk. rewrite <- Vl by lia. f_equal. lia.
Qed.
Lemma in_angles : is_directional mode = true -> In (intra_mode_to_angle mode + delta * 3) angles.
Proof.
  clear - Hdelta. intros D. unfold angles. apply in_flat_map. exists (intra_mode_to_angle mode). split; [destruct mode; try discriminate D; cbn; tauto|].
  apply in_map_iff. exists delta. split; [lia|]. cbn. lia.
Qed.
Let p := intra_mode_to_angle mode + delta * 3.
Lemma dir_needs : is_directional mode = true -> n_top nd = true /\ n_left nd = true /\ n_topright nd = (p <? 90) /\ n_bottomleft nd = (180 <? p) /\
  n_topleft nd = negb (p =? 90) && negb (p =? 180) /\ n_filter nd = ef && (90 <? p) && (p <? 180).
Proof. intros D. unfold nd, edge_needs, p. destruct mode; try discriminate D; cbn [edge_mode is_dc_or_cfl negb orb is_directional andb n_top n_left n_topright n_bottomleft n_topleft n_filter]; auto 10. Qed.
Lemma dir_all i j : is_directional mode = true -> p <> 90 -> p <> 180 -> 0 <= i < h -> 0 <= j < w ->
  pred_directional tb bd w h (above_of e) (last_of (w + h) (left_of e)) (e_corner e) p (if ef then Some sm else None) rw rh i j =
    Some (Intra_spec.directional bd w h hl ha rw rh ef sm Above Left p i j) /\ inr bd (Intra_spec.directional bd w h hl ha rw rh ef sm Above Left p i j).
Proof.
  intros D N1 N2 Hi Hj. destruct (dir_needs D) as (T1 & T2 & T3 & T4 & T5 & T6). assert (Ena' : e_na e = w + (if p <? 90 then h else 0)) by (rewrite Ena, T1, T3; reflexivity). assert (Enl' : e_nl e = h + (if 180 <? p then w else 0)) by (rewrite Enl, T2, T4; reflexivity).
  pose proof (size_range w Hw). pose proof (size_range h Hh).
  apply directional_sound; auto; try (clear - Hbd; lia).
  - apply in_angles, D.
  - unfold last_of, left_of. cbn [s_len]. unfold nL. rewrite <- Enl'. assert (e_nl e <= w + h) by (clear - Enl' H H0; destruct (180 <? p); lia). clear - H1; lia.
  - intros q Hq. cbn [above_of s_at]. apply Va. unfold nA in Hq. clear - Hq Ena'. lia.
  - intros q Hq. unfold last_of, left_of. cbn [s_len s_at]. unfold nL in *. rewrite <- Enl' in *. assert (e_nl e <= w + h) by (clear - Enl' H H0; destruct (180 <? p); lia).
    replace (Z.max 0 (e_nl e - (w + h))) with 0 by (clear - H1; lia). rewrite <- Vl by (clear - Hq; lia). f_equal. clear. lia.
  - rewrite Vc, T5, T6. replace (negb (p =? 90) && negb (p =? 180)) with true by (clear - N1 N2; lia). unfold corner1, fc. cbn [Z.eqb Pos.eqb andb].
    destruct (ef && (90 <? p) && (p <? 180) && (24 <=? w + h)); reflexivity.
Qed.
Lemma dir_90 i j : Intra_spec.directional bd w h hl ha rw rh ef sm Above Left 90 i j = Above j.
Proof.
  rewrite directional_eq. unfold dir_body. cbn [Z.ltb Z.compare Pos.compare Pos.compare_cont andb Z.eqb Pos.eqb]. unfold Aedge, upA, A2, diag, corner1, fc. cbn.
  rewrite !andb_false_r. cbn. rewrite andb_false_r. reflexivity.
Qed.
Lemma dir_180 i j : Intra_spec.directional bd w h hl ha rw rh ef sm Above Left 180 i j = Left i.
Proof.
  rewrite directional_eq. unfold dir_body. cbn [Z.ltb Z.compare Pos.compare Pos.compare_cont andb Z.eqb Pos.eqb]. unfold Ledge, upL, L2, diag, corner1, fc. cbn.
  rewrite !andb_false_r. cbn. rewrite andb_false_r. reflexivity.
Qed.
Definition ief : option bool := if is_directional mode && ef then Some sm else None.
Theorem predict_sound alpha ac i j : (mode <> UV_CFL_PRED \/ alpha = 0) -> 0 <= i < h -> 0 <= j < w ->
  predict_intra tb bd w h mode x y alpha delta ac ief rw rh (left_of e) (e_corner e) (above_of e) i j =
    Some (Intra_spec.predict_intra bd w h hl ha rw rh ef sm (tmode mode) delta Above Left i j) /\
  inr bd (Intra_spec.predict_intra bd w h hl ha rw rh ef sm (tmode mode) delta Above Left i j).
Proof.
  intros HC Hi Hj.
  assert (DIR : is_directional mode = true -> mode <> V_PRED -> mode <> H_PRED ->
    pred_directional tb bd w h (above_of e) (last_of (w + h) (left_of e)) (e_corner e) p ief rw rh i j =
    Some (Intra_spec.directional bd w h hl ha rw rh ef sm Above Left p i j) /\ inr bd (Intra_spec.directional bd w h hl ha rw rh ef sm Above Left p i j)).
  { intros D M1 M2. unfold ief. rewrite D. cbn [andb]. apply dir_all; auto; clear - Hdelta D M1 M2; unfold p; destruct mode; try discriminate D; try congruence; cbn [intra_mode_to_angle]; lia. }
  assert (DCT : mode = DC_PRED \/ mode = UV_CFL_PRED -> n_top nd = true /\ (hl = true -> n_left nd = true)).
  { intros M. assert (delta = 0) by (apply Hdelta0; destruct M as [-> | ->]; reflexivity). unfold nd, edge_needs. rewrite H, Hhl. destruct M as [-> | ->]; cbn; destruct (y =? 0), (x =? 0); auto. }
  assert (DC : mode = DC_PRED \/ mode = UV_CFL_PRED -> dc_variant tb bd w h x y (above_of e) (last_of h (left_of e)) = Some (Intra_spec.dc_pred bd w h hl ha Above Left) /\ inr bd (Intra_spec.dc_pred bd w h hl ha Above Left)).
  { intros M. destruct (DCT M) as [T1 T2]. apply dc_sound; auto. - intros _. apply have_above_slice, T1. - intros Q. apply have_left_slice, T2, Q. }
  assert (SM : In mode [SMOOTH_PRED; SMOOTH_V_PRED; SMOOTH_H_PRED] -> holds_above (above_of e) /\ holds_left (last_of h (left_of e))).
  { intros M. split; [apply have_above_slice|apply have_left_slice]; unfold nd, edge_needs; cbn in M; destruct M as [<-|[<-|[<-|[]]]]; reflexivity. }
  assert (DA : is_directional mode = true -> p <> 90 -> p <> 180 ->
    pred_directional tb bd w h (above_of e) (last_of (w + h) (left_of e)) (e_corner e) p ief rw rh i j =
    Some (Intra_spec.directional bd w h hl ha rw rh ef sm Above Left p i j) /\ inr bd (Intra_spec.directional bd w h hl ha rw rh ef sm Above Left p i j)).
  { intros D M1 M2. unfold ief. rewrite D. cbn [andb]. apply dir_all; auto. }
  assert (PA : mode = PAETH_PRED -> holds_above (above_of e)).
  { intros M. apply have_above_slice. unfold nd, edge_needs. rewrite M, (Hdelta0 ltac:(rewrite M; reflexivity)). cbn [edge_mode]. destruct (x =? 0), (y =? 0); reflexivity. }
  assert (PL : mode = PAETH_PRED -> (x =? 0) && (y =? 0) = false -> holds_left (last_of h (left_of e))).
  { intros M N. apply have_left_slice. unfold nd, edge_needs. rewrite M, (Hdelta0 ltac:(rewrite M; reflexivity)). cbn [edge_mode]. destruct (x =? 0), (y =? 0); try discriminate N; reflexivity. }
  assert (PC : mode = PAETH_PRED -> x =? 0 = false -> y =? 0 = false -> e_corner e = Above (-1)).
  { intros M X Y. rewrite Vc. unfold nd, edge_needs. rewrite M, (Hdelta0 ltac:(rewrite M; reflexivity)). cbn [edge_mode]. rewrite X, Y. cbn. rewrite !andb_false_r. reflexivity. }
  destruct (Bool.bool_dec (is_directional mode) true) as [D|D].
  - destruct (dir_needs D) as (T1 & T2 & _). pose proof (have_above_slice T1) as SA. pose proof (have_left_slice T2) as SL. unfold Intra_spec.predict_intra.
    assert (DM : Intra_spec.is_directional_mode (tmode mode) = true) by (destruct mode; try discriminate D; reflexivity). rewrite DM.
    assert (AM : Intra_spec.Mode_To_Angle (tmode mode) + delta * 3 = p) by (unfold p; destruct mode; try discriminate D; reflexivity). rewrite AM.
    unfold predict_intra. unfold p in *.
    destruct mode; try discriminate D; cbn [intra_mode_to_angle] in *; try (apply DIR; congruence).
    + destruct (Z.eqb_spec (90 + delta * 3) 90) as [E|E].
      * rewrite E, dir_90. split; [eapply v_sound; eauto|apply HA; lia].
      * apply DA; auto. clear - Hdelta. lia.
    + destruct (Z.eqb_spec (180 + delta * 3) 180) as [E|E].
      * rewrite E, dir_180. split; [eapply h_sound; eauto|apply HL; lia].
      * apply DA; auto. clear - Hdelta. lia.
  - assert (delta = 0) by (apply Hdelta0; destruct (is_directional mode); congruence). unfold Intra_spec.predict_intra, predict_intra.
    destruct mode; try (exfalso; apply D; reflexivity); cbn [tmode Intra_spec.is_directional_mode].
    + apply DC. auto.
    + destruct SM as [S1 S2]; [cbn; auto|]. apply smooth_sound; auto.
    + destruct SM as [S1 S2]; [cbn; auto|]. apply smooth_v_sound; auto.
    + destruct SM as [S1 S2]; [cbn; auto|]. apply smooth_h_sound; auto.
    + split; [|apply paeth_range; lia]. destruct (paeth_missing i j ltac:(lia) ltac:(lia)) as (P1 & P2 & P3).
      rewrite Hhl, Hha in P1, P2, P3. subst delta.
      destruct (x =? 0) eqn:X, (y =? 0) eqn:Y; cbn [negb] in *.
      * rewrite P1 by auto. unfold dc_variant, pred_dc_128. rewrite X, Y. f_equal.
        assert (I : inr bd (2 ^ (bd - 1))). { unfold inr. assert (2 ^ bd = 2 * 2 ^ (bd - 1)) by (rewrite <- Z.pow_succ_r by lia; f_equal; lia). pose proof (Z.pow_pos_nonneg 2 (bd - 1)). lia. }
        replace (Z.shiftl 128 (bd - 8)) with (2 ^ (bd - 1)); [eapply cast_in; eauto|]. rewrite Z.shiftl_mul_pow2 by lia. change 128 with (2 ^ 7). rewrite <- Z.pow_add_r by lia. f_equal. lia.
      * rewrite P2 by auto. cbn [intra_mode_to_angle Z.mul Z.add Z.eqb Pos.eqb]. eapply v_sound; eauto.
      * rewrite P3 by auto. cbn [intra_mode_to_angle Z.mul Z.add Z.eqb Pos.eqb]. eapply h_sound; eauto.
      * rewrite PC by auto. apply paeth_sound; auto.
    + destruct HC as [HC| ->]; [congruence|]. cbn [Z.eqb]. apply DC. auto.
Qed.
Theorem cfl_dc alpha ac i j : mode = UV_CFL_PRED -> -32768 <= alpha < 32768 -> alpha <> 0 ->
  predict_intra tb bd w h mode x y alpha delta ac ief rw rh (left_of e) (e_corner e) (above_of e) i j =
    pred_cfl_inner tb bd w (Intra_spec.dc_pred bd w h hl ha Above Left) alpha ac i j /\ inr bd (Intra_spec.dc_pred bd w h hl ha Above Left).
Proof.
  intros M R N. assert (delta = 0) by (apply Hdelta0; rewrite M; reflexivity).
  assert (DC : dc_variant tb bd w h x y (above_of e) (last_of h (left_of e)) = Some (Intra_spec.dc_pred bd w h hl ha Above Left) /\ inr bd (Intra_spec.dc_pred bd w h hl ha Above Left)).
  { apply dc_sound; auto; intros Q; [apply have_above_slice|apply have_left_slice]; unfold nd, edge_needs; rewrite M, H; cbn; destruct (y =? 0), (x =? 0); auto; rewrite Hhl in Q; discriminate Q. }
  split; [|apply DC]. unfold predict_intra. rewrite M. replace (alpha =? 0) with false by lia. cbv beta iota zeta. rewrite (proj1 DC). cbn [obind]. f_equal.
  unfold i16. destruct (Z.ltb_spec (alpha mod 65536) 32768); dlia.
Qed.
End Modes.
