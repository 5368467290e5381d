(** [deblock_plane] computes the loop filter of the AV1 specification. *)
From Verif Require Import Deblock_model Deblock_order Deblock_proof.
From Verif Require Deblock_spec.
Open Scope Z_scope.
Open Scope list_scope.
Module Spec := Deblock_spec.

(** ** What a decoder knows about the blocks and the filter *)
Definition unit_of (b : block) : Spec.unit_info :=
  {| Spec.u_bw := 4 * 2 ^ b_w b; Spec.u_bh := 4 * 2 ^ b_h b;
     Spec.u_tw := 4 * 2 ^ b_tw b; Spec.u_th := 4 * 2 ^ b_th b;
     Spec.u_skip := b_skip b; Spec.u_ref := b_ref b; Spec.u_mode := b_moving b |}.
Definition params_of (d : deblock_state) : Spec.lf_params :=
  {| Spec.loop_filter_level := d_levels d; Spec.loop_filter_delta_enabled := d_deltas_enabled d;
     Spec.loop_filter_ref_deltas := d_ref_deltas d; Spec.loop_filter_mode_deltas := d_mode_deltas d |}.

(** A partition of the frame into AV1 blocks: sizes and shapes, transforms inside
    their block, every cell of a block holds the same information, and blocks that are
    four pixels wide or high fill the 8x8 area they lie in. *)
Record tiling (blocks : Z -> Z -> block) : Prop := {
  t_size : forall y x, let b := blocks y x in
    0 <= b_w b <= 5 /\ 0 <= b_h b <= 5 /\ - 2 <= b_w b - b_h b <= 2;
  t_tx : forall y x, let b := blocks y x in
    0 <= b_tw b <= Z.min 4 (b_w b) /\ 0 <= b_th b <= Z.min 4 (b_h b);
  t_same : forall y x y' x', let b := blocks y x in
    y' / 2 ^ b_h b = y / 2 ^ b_h b -> x' / 2 ^ b_w b = x / 2 ^ b_w b -> blocks y' x' = b;
  t_small : forall y x y' x', y' / 2 = y / 2 -> x' / 2 = x / 2 ->
    b_w (blocks y' x') = 0 \/ b_h (blocks y' x') = 0 ->
    b_w (blocks y x) = b_w (blocks y' x') /\ b_h (blocks y x) = b_h (blocks y' x')
}.

Lemma land_mod x k : 0 <= k -> Z.land x (2 ^ k - 1) = x mod 2 ^ k.
Proof. intros K. rewrite <- Z.land_ones by exact K. f_equal. rewrite Z.ones_equiv. lia. Qed.
Lemma lor_mult k dec : dec = 0 \/ dec = 1 -> Z.lor (k * 2 ^ dec) dec = k * 2 ^ dec + dec.
Proof.
  intros [-> | ->]; [rewrite Z.lor_0_r; lia|]. change (2 ^ 1) with 2. rewrite Z.mul_comm.
  destruct k as [|p|p]; try reflexivity. cbn. destruct p; reflexivity.
Qed.

Lemma div_or k dec w : dec = 0 \/ dec = 1 -> 1 <= w \/ dec = 0 -> (k * 2 ^ dec + dec) / 2 ^ w = k * 2 ^ dec / 2 ^ w.
Proof.
  intros [->| ->] W; [f_equal; lia|]. change (2 ^ 1) with 2. replace w with (1 + (w - 1)) by lia.
  rewrite Z.pow_add_r by lia. rewrite <- !Z.div_div by lia. f_equal. change (2 ^ 1) with 2. dlia.
Qed.
(** the cell to the left is in the same block *)
Lemma div_left k dec w : dec = 0 \/ dec = 1 -> dec < w \/ dec = 0 -> 0 <= w -> (k * 2 ^ dec) mod 2 ^ w <> 0 ->
  (k * 2 ^ dec + dec - 2 ^ dec) / 2 ^ w = k * 2 ^ dec / 2 ^ w.
Proof.
  intros D XW W BE. set (x := k * 2 ^ dec) in *.
  pose proof (Z.mod_pos_bound x (2 ^ w) ltac:(lia)) as MB.
  assert (MM : 2 ^ dec <= x mod 2 ^ w).
  { destruct XW as [L| ->]; [|change (2 ^ 0) with 1; lia].
    assert (D0 : (2 ^ dec | x mod 2 ^ w)).
    { apply Z.mod_divide; [lia|]. rewrite <- Znumtheory.Zmod_div_mod; [unfold x; apply Z.mod_mul; lia|lia|lia|].
      exists (2 ^ (w - dec)). rewrite <- Z.pow_add_r by lia. f_equal. lia. }
    apply Z.divide_pos_le in D0; lia. }
  pose proof (Z.div_mod x (2 ^ w) ltac:(lia)) as DM.
  assert (XD : dec < 2 ^ dec) by (destruct D as [->| ->]; cbn; lia).
  symmetry. apply Z.div_unique with (x mod 2 ^ w + dec - 2 ^ dec); [left; lia|lia].
Qed.

Section Frame.
Variables (d : deblock_state) (blocks : Z -> Z -> block) (pli bd tbits xdec ydec FW FH : Z).
Hypothesis (T : tiling blocks).
Hypothesis (PL : 0 <= pli <= 2) (LUMA : pli = 0 -> xdec = 0 /\ ydec = 0).
Hypothesis (DX : xdec = 0 \/ xdec = 1) (DY : ydec = 0 \/ ydec = 1).
Hypothesis (B : 8 <= bd <= tbits).
Hypothesis (LV : forall i, 0 <= i < 4 -> 0 <= d_levels d i <= 63).
Hypothesis (OFF1 : d_deltas_enabled d = false) (OFF2 : d_block_deltas_enabled d = false).

Notation fv := (filter_v_edge d blocks pli bd tbits xdec ydec).
Notation fh := (filter_h_edge d blocks pli bd tbits xdec ydec).
Let info (r c : Z) : Spec.unit_info := unit_of (blocks r c).
Notation spec_edge := (Spec.edge_filter (params_of d) info pli bd xdec ydec FW FH).
Definition in_range (p : plane) : Prop := forall r c, 0 <= p r c < 2 ^ bd.

Lemma spec_sx : Spec.sx pli xdec = xdec.
Proof. unfold Spec.sx. destruct (Z.eqb_spec pli 0) as [E|]; [destruct (LUMA E); lia|reflexivity]. Qed.
Lemma spec_sy : Spec.sy pli ydec = ydec.
Proof. unfold Spec.sy. destruct (Z.eqb_spec pli 0) as [E|]; [destruct (LUMA E); lia|reflexivity]. Qed.

(** *** Sizes *)
Definition range6 (w : Z) := w = 0 \/ w = 1 \/ w = 2 \/ w = 3 \/ w = 4 \/ w = 5.
Lemma side_spec w dec : 0 <= w <= 5 -> dec = 0 \/ dec = 1 ->
  4 * 2 ^ chroma_side w dec = Z.min 32 (Z.max 4 (4 * 2 ^ w / 2 ^ dec)) /\ 0 <= chroma_side w dec <= 3.
Proof.
  intros W D. assert (range6 w) as [->|[->|[->|[->|[->| ->]]]]] by (unfold range6; lia);
    destruct D as [->| ->]; vm_compute; intuition congruence.
Qed.
Lemma plane_side k w dec : 0 <= w <= 5 -> dec = 0 \/ dec = 1 ->
  (Z.land (k * 2 ^ dec) (2 ^ w - 1) =? 0) = ((4 * k) mod Z.max 4 (4 * 2 ^ w / 2 ^ dec) =? 0).
Proof.
  clear. intros W D. rewrite land_mod by lia.
  destruct (Z_lt_le_dec w dec) as [L|L].
  - assert (w = 0) by lia. assert (dec = 1) by lia. subst. change (2 ^ 0) with 1. rewrite Z.mod_1_r.
    change (Z.max 4 (4 * 1 / 2 ^ 1)) with 4. rewrite Z.mul_comm, Z.mod_mul by lia. reflexivity.
  - assert (E : 2 ^ w = 2 ^ dec * 2 ^ (w - dec)) by (rewrite <- Z.pow_add_r by lia; f_equal; lia).
    assert (P1 : 0 < 2 ^ dec) by lia. assert (P2 : 0 < 2 ^ (w - dec)) by lia.
    rewrite E. replace (4 * (2 ^ dec * 2 ^ (w - dec)) / 2 ^ dec) with (4 * 2 ^ (w - dec)) by (apply Z.div_unique_exact; lia).
    rewrite Z.max_r by lia. rewrite (Z.mul_comm k), !Z.mul_mod_distr_l by lia.
    apply eq_true_iff_eq. rewrite !Z.eqb_eq. nia.
Qed.
Lemma tx_edge k t : 0 <= t -> (Z.land k (2 ^ t - 1) =? 0) = ((4 * k) mod (4 * 2 ^ t) =? 0).
Proof.
  intros T0. rewrite land_mod by lia. rewrite Z.mul_mod_distr_l by lia.
  apply eq_true_iff_eq. rewrite !Z.eqb_eq. lia.
Qed.
Lemma shr_mul k dec : dec = 0 \/ dec = 1 -> Z.shiftr (k * 2 ^ dec) dec = k.
Proof. intros [->| ->]; rewrite Z.shiftr_div_pow2 by lia; apply Z.div_mul; lia. Qed.
Lemma four_shr k dec : dec = 0 \/ dec = 1 -> k * 2 ^ dec * 4 / 2 ^ dec = 4 * k.
Proof. intros [->| ->]; [change (2^0) with 1|change (2^1) with 2]; dlia. Qed.

(** the block the decoder looks at is the one the encoder looks at, or is as large *)
Lemma current ky kx :
  let b := blocks (ky * 2 ^ ydec) (kx * 2 ^ xdec) in
  let b' := blocks (ky * 2 ^ ydec + ydec) (kx * 2 ^ xdec + xdec) in
  b_w b' = b_w b /\ b_h b' = b_h b /\ (1 <= b_w b -> 1 <= b_h b -> b' = b) /\ (pli = 0 -> b' = b).
Proof.
  cbv zeta. destruct (t_size _ T (ky * 2 ^ ydec) (kx * 2 ^ xdec)) as (S1 & S2 & _).
  set (b := blocks _ _) in *.
  assert (L0 : pli = 0 -> blocks (ky * 2 ^ ydec + ydec) (kx * 2 ^ xdec + xdec) = b).
  { intros E. destruct (LUMA E) as [Ex Ey]. unfold b. f_equal; lia. }
  destruct (Z_lt_le_dec (b_w b) 1) as [W|W]; [|destruct (Z_lt_le_dec (b_h b) 1) as [H|H]].
  3:{ assert (E : blocks (ky * 2 ^ ydec + ydec) (kx * 2 ^ xdec + xdec) = b).
      { apply (t_same _ T); fold b; apply div_or; auto. }
      rewrite E. auto. }
  - destruct (t_small _ T (ky * 2 ^ ydec + ydec) (kx * 2 ^ xdec + xdec) (ky * 2 ^ ydec) (kx * 2 ^ xdec)) as [E1 E2]; fold b.
    + clear - DY. destruct DY as [->| ->]; [f_equal; lia|]. change (2 ^ 1) with 2. dlia.
    + clear - DX. destruct DX as [->| ->]; [f_equal; lia|]. change (2 ^ 1) with 2. dlia.
    + left. lia.
    + fold b in E1, E2. repeat split; auto. lia.
  - destruct (t_small _ T (ky * 2 ^ ydec + ydec) (kx * 2 ^ xdec + xdec) (ky * 2 ^ ydec) (kx * 2 ^ xdec)) as [E1 E2]; fold b.
    + clear - DY. destruct DY as [->| ->]; [f_equal; lia|]. change (2 ^ 1) with 2. dlia.
    + clear - DX. destruct DX as [->| ->]; [f_equal; lia|]. change (2 ^ 1) with 2. dlia.
    + right. lia.
    + fold b in E1, E2. repeat split; auto. lia.
Qed.

Lemma tx_w_spec y x b : b = blocks y x -> 4 * 2 ^ tx_w pli xdec b = Spec.lf_tx_w pli xdec (unit_of b) /\ 0 <= tx_w pli xdec b <= 4.
Proof.
  intros ->. unfold tx_w, Spec.lf_tx_w, Spec.plane_bw. rewrite spec_sx.
  destruct (t_size _ T y x) as (S1 & S2 & _). destruct (t_tx _ T y x) as (X1 & X2).
  destruct (pli =? 0); cbn [unit_of Spec.u_tw Spec.u_bw]; [split; [reflexivity|lia]|].
  destruct (side_spec (b_w (blocks y x)) xdec S1 DX) as [E1 E2]. split; [exact E1|lia].
Qed.
Lemma tx_h_spec y x b : b = blocks y x -> 4 * 2 ^ tx_h pli ydec b = Spec.lf_tx_h pli ydec (unit_of b) /\ 0 <= tx_h pli ydec b <= 4.
Proof.
  intros ->. unfold tx_h, Spec.lf_tx_h, Spec.plane_bh. rewrite spec_sy.
  destruct (t_size _ T y x) as (S1 & S2 & _). destruct (t_tx _ T y x) as (X1 & X2).
  destruct (pli =? 0); cbn [unit_of Spec.u_th Spec.u_bh]; [split; [reflexivity|lia]|].
  destruct (side_spec (b_h (blocks y x)) ydec S2 DY) as [E1 E2]. split; [exact E1|lia].
Qed.
(** filter size *)
Lemma size_spec a c (A : 0 <= a <= 4) (C : 0 <= c <= 4) (CH : pli <> 0 -> a <= 3 /\ c <= 3) :
  let fs := if pli =? 0 then Z.min 16 (Z.min (4 * 2 ^ a) (4 * 2 ^ c)) else Z.min 8 (Z.min (4 * 2 ^ a) (4 * 2 ^ c)) in
  Z.min (if pli =? 0 then 14 else 6) (Z.shiftl (Z.min (2 ^ a) (2 ^ c)) 2) = kernel_of pli fs /\ fs_ok pli fs.
Proof.
  cbv zeta. rewrite Z.shiftl_mul_pow2 by lia.
  assert (R : forall a, 0 <= a <= 4 -> a = 0 \/ a = 1 \/ a = 2 \/ a = 3 \/ a = 4) by lia.
  unfold kernel_of, fs_ok. destruct (Z.eqb_spec pli 0) as [E|E];
  destruct (R a A) as [->|[->|[->|[->| ->]]]]; destruct (R c C) as [->|[->|[->|[->| ->]]]]; vm_compute; intuition congruence.
Qed.

Lemma level_spec b pass : pass = 0 \/ pass = 1 ->
  Spec.lvl_of (params_of d) pli (unit_of b) pass = deblock_adjusted_level d b pli (pass =? 0).
Proof.
  intros P. unfold Spec.lvl_of, deblock_adjusted_level. cbn [params_of Spec.loop_filter_delta_enabled Spec.loop_filter_level].
  rewrite OFF1, OFF2. unfold Spec.Clip3.
  set (i := if pli =? 0 then pass else pli + 1).
  replace (if pli =? 0 then (if pass =? 0 then 0 else 1) else pli + 1) with i.
  2:{ unfold i. destruct (pli =? 0); [|reflexivity]. destruct P as [->| ->]; reflexivity. }
  assert (I : 0 <= i < 4) by (unfold i; destruct (Z.eqb_spec pli 0); lia).
  pose proof (LV i I). destruct (Z.ltb_spec (d_levels d i) 0); [lia|]. destruct (Z.ltb_spec 63 (d_levels d i)); [lia|reflexivity].
Qed.
Lemma level_const b b' v : deblock_adjusted_level d b pli v = deblock_adjusted_level d b' pli v.
Proof. unfold deblock_adjusted_level. rewrite OFF1, OFF2. reflexivity. Qed.
Lemma chroma_le y x : pli <> 0 -> tx_w pli xdec (blocks y x) <= 3 /\ tx_h pli ydec (blocks y x) <= 3.
Proof.
  intros N. unfold tx_w, tx_h. rewrite (proj2 (Z.eqb_neq pli 0) N). destruct (t_size _ T y x) as (S1 & S2 & _).
  split; apply side_spec; auto.
Qed.

(** *** Vertical edges *)
Section V.
Variables (kx ky : Z).
Hypothesis (KX : 0 < kx) (KY : 0 <= ky).
Let x := kx * 2 ^ xdec.
Let y := ky * 2 ^ ydec.
Hypothesis (WX : x * 4 < FW) (WY : y * 4 < FH).
Let b := blocks y x.
Let b' := blocks (y + ydec) (x + xdec).
Let prev := blocks (y + ydec) (x + xdec - 2 ^ xdec).
Definition v_fs := if pli =? 0 then Z.min 16 (Z.min (4 * 2 ^ tx_w pli xdec b) (4 * 2 ^ tx_w pli xdec prev))
          else Z.min 8 (Z.min (4 * 2 ^ tx_w pli xdec b) (4 * 2 ^ tx_w pli xdec prev)).
Definition v_apply := ((4 * kx) mod (4 * 2 ^ tx_w pli xdec b) =? 0) &&
  (((4 * kx) mod Spec.plane_bw pli xdec (unit_of b) =? 0) || negb (b_skip b') || (b_ref b' =? 0)).

Lemma v_skip : (4 * kx) mod (4 * 2 ^ tx_w pli xdec b) = 0 -> (4 * kx) mod Spec.plane_bw pli xdec (unit_of b) <> 0 ->
  b' = b /\ prev = b.
Proof.
  intros T0 N. destruct (current ky kx) as (C1 & C2 & C3 & C4). fold x y in C1, C2, C3, C4. fold b b' in C1, C2, C3, C4.
  destruct (t_size _ T y x) as (S1 & S2 & S3). fold b in S1, S2, S3.
  assert (BE : x mod 2 ^ b_w b <> 0).
  { intros E. apply N. unfold Spec.plane_bw. rewrite spec_sx. cbn [unit_of Spec.u_bw].
    pose proof (plane_side kx (b_w b) xdec S1 DX) as PS. rewrite land_mod in PS by lia. fold x in PS. rewrite E in PS.
    cbn in PS. symmetry in PS. apply Z.eqb_eq in PS. exact PS. }
  assert (BIG : pli = 0 \/ 4 <= b_w b).
  { destruct (Z.eqb_spec pli 0) as [|NP]; [left; assumption|right].
    destruct (Z_lt_le_dec (b_w b) 4) as [L|]; [exfalso|assumption]. apply N.
    unfold tx_w in T0. rewrite (proj2 (Z.eqb_neq pli 0) NP) in T0.
    rewrite (proj1 (side_spec (b_w b) xdec S1 DX)) in T0.
    unfold Spec.plane_bw. rewrite spec_sx. cbn [unit_of Spec.u_bw].
    assert (M : Z.min 32 (Z.max 4 (4 * 2 ^ b_w b / 2 ^ xdec)) = Z.max 4 (4 * 2 ^ b_w b / 2 ^ xdec)).
    { assert (0 <= b_w b <= 3) as R by lia. assert (b_w b = 0 \/ b_w b = 1 \/ b_w b = 2 \/ b_w b = 3) as [->|[->|[->| ->]]] by lia;
      destruct DX as [->| ->]; vm_compute; reflexivity. }
    rewrite M in T0. exact T0. }
  assert (BB : b' = b). { destruct BIG as [E|E]; [apply C4, E|apply C3; clear - E S1 S2 S3; lia]. }
  split; [exact BB|].
  assert (H1 : pli = 0 \/ 1 <= b_h b) by (destruct BIG as [|BIG]; [left; assumption|right; clear - BIG S3; lia]).
  apply (t_same _ T y x); fold b.
  - apply div_or; [exact DY|]. destruct H1 as [E|E]; [right; apply (LUMA E)|left; exact E].
  - apply div_left; [exact DX| |apply S1|exact BE].
    destruct BIG as [E|E]; [right; apply (LUMA E)|left; clear - DX E; lia].
Qed.

Lemma v_size_spec : v_size blocks pli xdec ydec x y = if v_apply then kernel_of pli v_fs else 0.
Proof.
  unfold v_size, deblock_left. cbv zeta. rewrite Z.shiftl_mul_pow2, Z.mul_1_l by lia.
  unfold x, y. rewrite !lor_mult, shr_mul by assumption. fold x y. fold b prev.
  destruct (tx_w_spec y x b eq_refl) as [_ TX]. rewrite tx_edge by lia. unfold v_apply.
  destruct (Z.eqb_spec ((4 * kx) mod (4 * 2 ^ tx_w pli xdec b)) 0) as [T0|]; cbn [andb]; [|reflexivity].
  destruct (t_size _ T y x) as (S1 & S2 & S3). fold b in S1, S2, S3.
  unfold deblock_size. unfold x at 1. rewrite plane_side by assumption.
  replace (Z.max 4 (4 * 2 ^ b_w b / 2 ^ xdec)) with (Spec.plane_bw pli xdec (unit_of b)) by (unfold Spec.plane_bw; rewrite spec_sx; reflexivity).
  destruct (tx_w_spec (y + ydec) (x + xdec - 2 ^ xdec) prev eq_refl) as [_ TXP].
  assert (SZ : Z.min (if pli =? 0 then 14 else 6) (Z.shiftl (Z.min (2 ^ tx_w pli xdec b) (2 ^ tx_w pli xdec prev)) 2) = kernel_of pli v_fs).
  { apply size_spec; auto. intros N. split; apply chroma_le, N. }
  rewrite SZ. destruct (Z.eqb_spec ((4 * kx) mod Spec.plane_bw pli xdec (unit_of b)) 0) as [E|N]; cbn [orb negb]; [reflexivity|].
  destruct (v_skip T0 N) as [-> ->]. destruct (b_skip b), (b_ref b =? 0); reflexivity.
Qed.

Lemma v_edge p : in_range p -> peq (fv x y p) (spec_edge 0 y x p) /\ in_range (fv x y p).
Proof.
  intros R.
  assert (FSOK : fs_ok pli v_fs).
  { destruct (tx_w_spec y x b eq_refl) as [_ TX]. destruct (tx_w_spec (y + ydec) (x + xdec - 2 ^ xdec) prev eq_refl) as [_ TXP].
    apply size_spec; auto. intros N. split; apply chroma_le, N. }
  assert (K : kernel_of pli v_fs = 4 \/ kernel_of pli v_fs = 6 \/ kernel_of pli v_fs = 8 \/ kernel_of pli v_fs = 14).
  { unfold kernel_of. destruct (v_fs =? 4), (pli =? 0), (v_fs =? 8); auto. }
  assert (X0 : 0 < x) by (unfold x; apply Z.mul_pos_pos; [exact KX|apply Z.pow_pos_nonneg; clear - DX; lia]).
  assert (CUR : b_w b' = b_w b /\ b_h b' = b_h b /\ (1 <= b_w b -> 1 <= b_h b -> b' = b) /\ (pli = 0 -> b' = b)) by exact (current ky kx).
  destruct CUR as (C1 & C2 & C3 & C4).
  set (lvl := v_level d blocks pli xdec ydec x y).
  set (size := kernel_of pli v_fs) in *.
  assert (TB : Spec.lf_tx_w pli xdec (unit_of b') = 4 * 2 ^ tx_w pli xdec b).
  { rewrite (proj1 (tx_w_spec y x b eq_refl)). unfold Spec.lf_tx_w, Spec.plane_bw. destruct (Z.eqb_spec pli 0) as [E|E].
    - rewrite (C4 E). reflexivity.
    - cbn [unit_of Spec.u_bw]. rewrite C1. reflexivity. }
  assert (SE : forall r c, spec_edge 0 y x p r c =
     if v_apply && (0 <? lvl) && ((4 * ky <=? r) && (r <? 4 * ky + 4))
     then Spec.line pli v_fs bd lvl (fun i => p r (4 * kx + i)) (c - 4 * kx) else p r c).
  { intros r c. unfold Spec.edge_filter. cbv zeta. rewrite spec_sx, spec_sy.
    change (0 =? 0) with true. cbv iota.
    replace (x * 4 <? FW) with true by (symmetry; apply Z.ltb_lt, WX).
    replace (y * 4 <? FH) with true by (symmetry; apply Z.ltb_lt, WY).
    replace (x * 4 =? 0) with false by (symmetry; apply Z.eqb_neq; lia). cbn [andb negb].
    replace (Z.lor x xdec) with (x + xdec) by (unfold x; symmetry; apply lor_mult, DX).
    replace (Z.lor y ydec) with (y + ydec) by (unfold y; symmetry; apply lor_mult, DY).
    replace (x * 4 / 2 ^ xdec) with (4 * kx) by (unfold x; symmetry; apply four_shr, DX).
    replace (y * 4 / 2 ^ ydec) with (4 * ky) by (unfold y; symmetry; apply four_shr, DY).
    unfold info. fold b' prev. rewrite TB.
    rewrite <- (proj1 (tx_w_spec _ _ prev eq_refl)).
    replace (Spec.plane_bw pli xdec (unit_of b')) with (Spec.plane_bw pli xdec (unit_of b)).
    2:{ unfold Spec.plane_bw. cbn [unit_of Spec.u_bw]. rewrite C1. reflexivity. }
    cbn [unit_of Spec.u_skip Spec.u_ref]. fold v_apply. fold v_fs.
    rewrite !level_spec by (left; reflexivity). change (0 =? 0) with true.
    replace (if deblock_adjusted_level d b' pli true =? 0 then deblock_adjusted_level d prev pli true else deblock_adjusted_level d b' pli true) with lvl.
    2:{ unfold lvl, v_level, deblock_level, deblock_left.
        rewrite (level_const b' (blocks y x)), (level_const prev (blocks y x)), (level_const (blocks (Z.lor y ydec) _) (blocks y x)). reflexivity. }
    destruct (v_apply && (0 <? lvl)); cbn [andb]; [|reflexivity].
    destruct ((4 * ky <=? r) && (r <? 4 * ky + 4)); reflexivity. }
  assert (FE : forall r c, fv x y p r c = if v_apply && (0 <? lvl) && ((4 * ky <=? r) && (r <? 4 * ky + 4)) && ((4 * kx - size / 2 <=? c) && (c <? 4 * kx - size / 2 + size))
     then deblock_line tbits size (fun i => p r (4 * kx - size / 2 + i)) lvl bd (c - (4 * kx - size / 2)) else p r c).
  { intros r c. unfold filter_v_edge. rewrite v_size_spec. fold lvl. fold size. cbv zeta.
    destruct v_apply; [|reflexivity]. replace (0 <? size) with true by (symmetry; apply Z.ltb_lt; lia). cbn [andb].
    destruct (0 <? lvl); cbn [andb]; [|reflexivity].
    rewrite !Z.shiftl_mul_pow2 by lia. unfold x, y. rewrite !shr_mul by assumption. fold x y.
    change (2 ^ 2) with 4. rewrite Z.shiftr_div_pow2 by lia. change (2 ^ 1) with 2.
    rewrite !(Z.mul_comm kx 4), !(Z.mul_comm ky 4). rewrite <- !andb_assoc. reflexivity. }
  assert (HS : size / 2 * 2 = size). { clear - K. destruct K as [->|[->|[->| ->]]]; reflexivity. }
  enough (PW : forall r c, fv x y p r c = spec_edge 0 y x p r c /\ 0 <= fv x y p r c < 2 ^ bd).
  { split; intros r c; apply PW. }
  intros r c. rewrite SE, FE.
  destruct (v_apply && (0 <? lvl)) eqn:A; cbn [andb]; [|split; [reflexivity|apply R]].
  apply andb_true_iff in A as [_ A]. apply Z.ltb_lt in A.
  destruct ((4 * ky <=? r) && (r <? 4 * ky + 4)); cbn [andb]; [|split; [reflexivity|apply R]].
  destruct ((4 * kx - size / 2 <=? c) && (c <? 4 * kx - size / 2 + size)) eqn:C; cbn [andb].
  - apply andb_true_iff in C as [Ca Cb]. apply Z.leb_le in Ca. apply Z.ltb_lt in Cb.
    pose proof (line_ok bd lvl ltac:(lia) ltac:(lia) pli v_fs (fun i => p r (4 * kx + i)) FSOK
      ltac:(intros; apply R) tbits (c - 4 * kx) ltac:(lia)) as LO.
    fold size in LO. specialize (LO ltac:(lia)).
    replace (c - (4 * kx - size / 2)) with (c - 4 * kx + size / 2) by lia.
    rewrite (deblock_line_ext tbits size _ (fun k => p r (4 * kx + (k - size / 2)))); [|intros; f_equal; lia|lia].
    destruct LO as [-> LO]. split; [reflexivity|exact LO].
  - split; [|apply R]. symmetry. rewrite line_far; [f_equal; lia|lia|lia|exact FSOK|intros; apply R|].
    fold size. apply andb_false_iff in C as [C|C]; [apply Z.leb_gt in C|apply Z.ltb_ge in C]; lia.
Qed.
End V.
(** *** Horizontal edges *)
Section H.
Variables (kx ky : Z).
Hypothesis (KX : 0 <= kx) (KY : 0 < ky).
Let x := kx * 2 ^ xdec.
Let y := ky * 2 ^ ydec.
Hypothesis (WX : x * 4 < FW) (WY : y * 4 < FH).
Let b := blocks y x.
Let b' := blocks (y + ydec) (x + xdec).
Let prev := blocks (y + ydec - 2 ^ ydec) (x + xdec).
Definition h_fs := if pli =? 0 then Z.min 16 (Z.min (4 * 2 ^ tx_h pli ydec b) (4 * 2 ^ tx_h pli ydec prev))
          else Z.min 8 (Z.min (4 * 2 ^ tx_h pli ydec b) (4 * 2 ^ tx_h pli ydec prev)).
Definition h_apply := ((4 * ky) mod (4 * 2 ^ tx_h pli ydec b) =? 0) &&
  (((4 * ky) mod Spec.plane_bh pli ydec (unit_of b) =? 0) || negb (b_skip b') || (b_ref b' =? 0)).

Lemma h_skip : (4 * ky) mod (4 * 2 ^ tx_h pli ydec b) = 0 -> (4 * ky) mod Spec.plane_bh pli ydec (unit_of b) <> 0 ->
  b' = b /\ prev = b.
Proof.
  intros T0 N. destruct (current ky kx) as (C1 & C2 & C3 & C4). fold x y in C1, C2, C3, C4. fold b b' in C1, C2, C3, C4.
  destruct (t_size _ T y x) as (S1 & S2 & S3). fold b in S1, S2, S3.
  assert (BE : y mod 2 ^ b_h b <> 0).
  { intros E. apply N. unfold Spec.plane_bh. rewrite spec_sy. cbn [unit_of Spec.u_bh].
    pose proof (plane_side ky (b_h b) ydec S2 DY) as PS. rewrite land_mod in PS by lia. fold y in PS. rewrite E in PS.
    cbn in PS. symmetry in PS. apply Z.eqb_eq in PS. exact PS. }
  assert (BIG : pli = 0 \/ 4 <= b_h b).
  { destruct (Z.eqb_spec pli 0) as [|NP]; [left; assumption|right].
    destruct (Z_lt_le_dec (b_h b) 4) as [L|]; [exfalso|assumption]. apply N.
    unfold tx_h in T0. rewrite (proj2 (Z.eqb_neq pli 0) NP) in T0.
    rewrite (proj1 (side_spec (b_h b) ydec S2 DY)) in T0.
    unfold Spec.plane_bh. rewrite spec_sy. cbn [unit_of Spec.u_bh].
    assert (M : Z.min 32 (Z.max 4 (4 * 2 ^ b_h b / 2 ^ ydec)) = Z.max 4 (4 * 2 ^ b_h b / 2 ^ ydec)).
    { assert (0 <= b_h b <= 3) as R by lia. assert (b_h b = 0 \/ b_h b = 1 \/ b_h b = 2 \/ b_h b = 3) as [->|[->|[->| ->]]] by lia;
      destruct DY as [->| ->]; vm_compute; reflexivity. }
    rewrite M in T0. exact T0. }
  assert (BB : b' = b). { destruct BIG as [E|E]; [apply C4, E|apply C3; clear - E S1 S2 S3; lia]. }
  split; [exact BB|].
  assert (H1 : pli = 0 \/ 1 <= b_w b) by (destruct BIG as [|BIG]; [left; assumption|right; clear - BIG S3; lia]).
  apply (t_same _ T y x); fold b.
  - apply div_left; [exact DY| |apply S2|exact BE].
    destruct BIG as [E|E]; [right; apply (LUMA E)|left; clear - DY E; lia].
  - apply div_or; [exact DX|]. destruct H1 as [E|E]; [right; apply (LUMA E)|left; exact E].
Qed.

Lemma h_size_spec : h_size blocks pli xdec ydec x y = if h_apply then kernel_of pli h_fs else 0.
Proof.
  unfold h_size, deblock_up. cbv zeta. rewrite Z.shiftl_mul_pow2, Z.mul_1_l by lia.
  unfold x, y. rewrite !lor_mult, shr_mul by assumption. fold x y. fold b prev.
  destruct (tx_h_spec y x b eq_refl) as [_ TX]. rewrite tx_edge by lia. unfold h_apply.
  destruct (Z.eqb_spec ((4 * ky) mod (4 * 2 ^ tx_h pli ydec b)) 0) as [T0|]; cbn [andb]; [|reflexivity].
  destruct (t_size _ T y x) as (S1 & S2 & S3). fold b in S1, S2, S3.
  unfold deblock_size. unfold y at 1. rewrite plane_side by assumption.
  replace (Z.max 4 (4 * 2 ^ b_h b / 2 ^ ydec)) with (Spec.plane_bh pli ydec (unit_of b)) by (unfold Spec.plane_bh; rewrite spec_sy; reflexivity).
  destruct (tx_h_spec (y + ydec - 2 ^ ydec) (x + xdec) prev eq_refl) as [_ TXP].
  assert (SZ : Z.min (if pli =? 0 then 14 else 6) (Z.shiftl (Z.min (2 ^ tx_h pli ydec b) (2 ^ tx_h pli ydec prev)) 2) = kernel_of pli h_fs).
  { apply size_spec; auto. intros N. split; apply chroma_le, N. }
  rewrite SZ. destruct (Z.eqb_spec ((4 * ky) mod Spec.plane_bh pli ydec (unit_of b)) 0) as [E|N]; cbn [orb negb]; [reflexivity|].
  destruct (h_skip T0 N) as [-> ->]. destruct (b_skip b), (b_ref b =? 0); reflexivity.
Qed.

Lemma h_edge p : in_range p -> peq (fh x y p) (spec_edge 1 y x p) /\ in_range (fh x y p).
Proof.
  intros R.
  assert (FSOK : fs_ok pli h_fs).
  { destruct (tx_h_spec y x b eq_refl) as [_ TX]. destruct (tx_h_spec (y + ydec - 2 ^ ydec) (x + xdec) prev eq_refl) as [_ TXP].
    apply size_spec; auto. intros N. split; apply chroma_le, N. }
  assert (K : kernel_of pli h_fs = 4 \/ kernel_of pli h_fs = 6 \/ kernel_of pli h_fs = 8 \/ kernel_of pli h_fs = 14).
  { unfold kernel_of. destruct (h_fs =? 4), (pli =? 0), (h_fs =? 8); auto. }
  assert (X0 : 0 < y) by (unfold y; apply Z.mul_pos_pos; [exact KY|apply Z.pow_pos_nonneg; clear - DY; lia]).
  assert (CUR : b_w b' = b_w b /\ b_h b' = b_h b /\ (1 <= b_w b -> 1 <= b_h b -> b' = b) /\ (pli = 0 -> b' = b)) by exact (current ky kx).
  destruct CUR as (C1 & C2 & C3 & C4).
  set (lvl := h_level d blocks pli xdec ydec x y).
  set (size := kernel_of pli h_fs) in *.
  assert (TB : Spec.lf_tx_h pli ydec (unit_of b') = 4 * 2 ^ tx_h pli ydec b).
  { rewrite (proj1 (tx_h_spec y x b eq_refl)). unfold Spec.lf_tx_h, Spec.plane_bh. destruct (Z.eqb_spec pli 0) as [E|E].
    - rewrite (C4 E). reflexivity.
    - cbn [unit_of Spec.u_bh]. rewrite C2. reflexivity. }
  assert (SE : forall r c, spec_edge 1 y x p r c =
     if h_apply && (0 <? lvl) && ((4 * kx <=? c) && (c <? 4 * kx + 4))
     then Spec.line pli h_fs bd lvl (fun i => p (4 * ky + i) c) (r - 4 * ky) else p r c).
  { intros r c. unfold Spec.edge_filter. cbv zeta. rewrite spec_sx, spec_sy.
    change (1 =? 0) with false. cbv iota.
    replace (x * 4 <? FW) with true by (symmetry; apply Z.ltb_lt, WX).
    replace (y * 4 <? FH) with true by (symmetry; apply Z.ltb_lt, WY).
    replace (y * 4 =? 0) with false by (symmetry; apply Z.eqb_neq; lia). cbn [andb negb].
    replace (Z.lor x xdec) with (x + xdec) by (unfold x; symmetry; apply lor_mult, DX).
    replace (Z.lor y ydec) with (y + ydec) by (unfold y; symmetry; apply lor_mult, DY).
    replace (x * 4 / 2 ^ xdec) with (4 * kx) by (unfold x; symmetry; apply four_shr, DX).
    replace (y * 4 / 2 ^ ydec) with (4 * ky) by (unfold y; symmetry; apply four_shr, DY).
    unfold info. fold b' prev. rewrite TB.
    rewrite <- (proj1 (tx_h_spec _ _ prev eq_refl)).
    replace (Spec.plane_bh pli ydec (unit_of b')) with (Spec.plane_bh pli ydec (unit_of b)).
    2:{ unfold Spec.plane_bh. cbn [unit_of Spec.u_bh]. rewrite C2. reflexivity. }
    cbn [unit_of Spec.u_skip Spec.u_ref]. fold h_apply. fold h_fs.
    rewrite !level_spec by (right; reflexivity). change (1 =? 0) with false.
    replace (if deblock_adjusted_level d b' pli false =? 0 then deblock_adjusted_level d prev pli false else deblock_adjusted_level d b' pli false) with lvl.
    2:{ unfold lvl, h_level, deblock_level, deblock_up.
        rewrite (level_const b' (blocks y x)), (level_const prev (blocks y x)), (level_const (blocks _ (Z.lor x xdec)) (blocks y x)). reflexivity. }
    destruct (h_apply && (0 <? lvl)); cbn [andb]; [|reflexivity].
    destruct ((4 * kx <=? c) && (c <? 4 * kx + 4)); reflexivity. }
  assert (FE : forall r c, fh x y p r c = if h_apply && (0 <? lvl) && ((4 * kx <=? c) && (c <? 4 * kx + 4)) && ((4 * ky - size / 2 <=? r) && (r <? 4 * ky - size / 2 + size))
     then deblock_line tbits size (fun i => p (4 * ky - size / 2 + i) c) lvl bd (r - (4 * ky - size / 2)) else p r c).
  { intros r c. unfold filter_h_edge. rewrite h_size_spec. fold lvl. fold size. cbv zeta.
    destruct h_apply; [|reflexivity]. replace (0 <? size) with true by (symmetry; apply Z.ltb_lt; lia). cbn [andb].
    destruct (0 <? lvl); cbn [andb]; [|reflexivity].
    rewrite !Z.shiftl_mul_pow2 by lia. unfold x, y. rewrite !shr_mul by assumption. fold x y.
    change (2 ^ 2) with 4. rewrite Z.shiftr_div_pow2 by lia. change (2 ^ 1) with 2.
    rewrite !(Z.mul_comm kx 4), !(Z.mul_comm ky 4). rewrite <- !andb_assoc. reflexivity. }
  assert (HS : size / 2 * 2 = size). { clear - K. destruct K as [->|[->|[->| ->]]]; reflexivity. }
  enough (PW : forall r c, fh x y p r c = spec_edge 1 y x p r c /\ 0 <= fh x y p r c < 2 ^ bd).
  { split; intros r c; apply PW. }
  intros r c. rewrite SE, FE.
  destruct (h_apply && (0 <? lvl)) eqn:A; cbn [andb]; [|split; [reflexivity|apply R]].
  apply andb_true_iff in A as [_ A]. apply Z.ltb_lt in A.
  destruct ((4 * kx <=? c) && (c <? 4 * kx + 4)); cbn [andb]; [|split; [reflexivity|apply R]].
  destruct ((4 * ky - size / 2 <=? r) && (r <? 4 * ky - size / 2 + size)) eqn:C; cbn [andb].
  - apply andb_true_iff in C as [Ca Cb]. apply Z.leb_le in Ca. apply Z.ltb_lt in Cb.
    pose proof (line_ok bd lvl ltac:(lia) ltac:(lia) pli h_fs (fun i => p (4 * ky + i) c) FSOK
      ltac:(intros; apply R) tbits (r - 4 * ky) ltac:(lia)) as LO.
    fold size in LO. specialize (LO ltac:(lia)).
    replace (r - (4 * ky - size / 2)) with (r - 4 * ky + size / 2) by lia.
    rewrite (deblock_line_ext tbits size _ (fun k => p (4 * ky + (k - size / 2)) c)); [|intros; f_equal; lia|lia].
    destruct LO as [-> LO]. split; [reflexivity|exact LO].
  - split; [|apply R]. symmetry. rewrite line_far; [f_equal; lia|lia|lia|exact FSOK|intros; apply R|].
    fold size. apply andb_false_iff in C as [C|C]; [apply Z.leb_gt in C|apply Z.ltb_ge in C]; lia.
Qed.
End H.

(** *** The whole plane *)
Lemma spec_off pass r c s : FW <= c * 4 \/ FH <= r * 4 \/ (pass = 0 /\ c = 0) \/ (pass = 1 /\ r = 0) ->
  spec_edge pass r c s = s.
Proof.
  intros O. unfold Spec.edge_filter. cbv zeta.
  replace ((c * 4 <? FW) && (r * 4 <? FH) && (if pass =? 0 then negb (c * 4 =? 0) else negb (r * 4 =? 0))) with false; [reflexivity|].
  symmetry. apply not_true_is_false. rewrite !andb_true_iff, !Z.ltb_lt. intros [[H1 H2] H3].
  destruct O as [O|[O|[[-> ->]|[-> ->]]]]; [lia|lia|discriminate|discriminate].
Qed.
Lemma fold_filter {A S} (F : S -> A -> S) f l : (forall s a, f a = false -> F s a = s) ->
  forall s, fold_left F l s = fold_left F (filter f l) s.
Proof.
  intros H. induction l as [|a l IH]; intros s; cbn [filter fold_left]; [reflexivity|].
  destruct (f a) eqn:E; cbn [fold_left]; [apply IH|]. rewrite (H s a E). apply IH.
Qed.
Lemma fold_same {A S} (F G : S -> A -> S) l : (forall s a, F s a = G s a) -> forall s, fold_left F l s = fold_left G l s.
Proof. intros H. induction l as [|a l IH]; intros s; cbn [fold_left]; [reflexivity|]. rewrite H. apply IH. Qed.
Lemma fold_id {A S} (F : S -> A -> S) l : (forall s a, F s a = s) -> forall s, fold_left F l s = s.
Proof. intros H. induction l as [|a l IH]; intros s; cbn [fold_left]; [reflexivity|]. rewrite H. apply IH. Qed.
Lemma fold_flat {A S E} (F : S -> E -> S) (g : A -> list E) l : forall s,
  fold_left F (flat_map g l) s = fold_left (fun s a => fold_left F (g a) s) l s.
Proof. induction l as [|a l IH]; intros s; cbn [flat_map fold_left]; [reflexivity|]. rewrite fold_left_app. apply IH. Qed.
Lemma fold_map {A E S} (F : S -> E -> S) (g : A -> E) l : forall s, fold_left F (map g l) s = fold_left (fun s a => F s (g a)) l s.
Proof. induction l as [|a l IH]; intros s; cbn [map fold_left]; [reflexivity|]. apply IH. Qed.

Lemma cells_steps n dec : dec = 0 \/ dec = 1 -> Spec.cells n (2 ^ dec) = steps 0 n dec.
Proof.
  intros D. unfold Spec.cells, steps. replace (Z.shiftl 1 dec) with (2 ^ dec) by (destruct D as [->| ->]; reflexivity).
  rewrite Z.sub_0_r. apply map_ext. intros i. lia.
Qed.
(** the cells inside the frame *)
Lemma count_mult bc W dec : dec = 0 \/ dec = 1 -> 0 < W -> (W + 3) / 4 <= bc ->
  exists n, 0 <= n /\ edge_count bc W dec = n * Z.shiftl 1 dec /\
    (forall k, k * Z.shiftl 1 dec < edge_count bc W dec <-> k * Z.shiftl 1 dec * 4 < W).
Proof.
  clear. intros D W0 BC. unfold edge_count. replace (Z.shiftr (W + 4 - 1) 2) with ((W + 3) / 4).
  2:{ rewrite Z.shiftr_div_pow2 by lia. f_equal. lia. }
  rewrite Z.min_r by lia. destruct D as [->| ->].
  - change (Z.shiftl 1 0) with 1. change (Z.shiftr 1 1) with 0. rewrite Z.shiftr_0_r, Z.shiftl_0_r.
    exists ((W + 3) / 4). split; [dlia|]. split; [lia|]. intros k. dlia.
  - change (Z.shiftl 1 1) with 2. change (Z.shiftr 2 1) with 1. rewrite Z.shiftr_div_pow2, Z.shiftl_mul_pow2 by lia.
    change (2 ^ 1) with 2. exists (((W + 3) / 4 + 1) / 2). split; [dlia|]. split; [lia|]. intros k. dlia.
Qed.
Lemma filter_steps bc W dec n : dec = 0 \/ dec = 1 -> 0 < W -> (W + 3) / 4 <= bc -> (W + 3) / 4 <= n ->
  forall k, filter (fun x => x * 4 <? W) (steps (k * Z.shiftl 1 dec) n dec) = steps (k * Z.shiftl 1 dec) (edge_count bc W dec) dec.
Proof.
  clear. intros D W0 BC N. destruct (count_mult bc W dec D W0 BC) as (m & M & EM & CM).
  set (cols := edge_count bc W dec) in *. clearbody cols.
  assert (S0 : 0 < Z.shiftl 1 dec) by (destruct D as [->| ->]; cbn; lia). set (s := Z.shiftl 1 dec) in *.
  enough (G : forall f k, (Z.to_nat (n - k * s) <= f)%nat -> filter (fun x => x * 4 <? W) (steps (k * s) n dec) = steps (k * s) cols dec).
  { intros k. apply (G _ k (le_n _)). }
  assert (BIG : forall k, W <= k * s * 4 -> cols <= k * s). { intros k H. specialize (CM k). lia. }
  induction f as [|f IH]; intros k L.
  - assert (n <= k * s) by lia. rewrite (steps_nil (k * s) n) by (exact D || lia).
    rewrite steps_nil; [reflexivity|exact D|]. apply BIG. dlia.
  - destruct (Z_lt_le_dec (k * s) n).
    2:{ rewrite (steps_nil (k * s) n) by (exact D || lia). rewrite steps_nil; [reflexivity|exact D|]. apply BIG. dlia. }
    rewrite (steps_cons (k * s) n) by (exact D || lia). fold s. cbn [filter].
    replace (k * s + s) with ((k + 1) * s) by lia. rewrite IH by lia.
    destruct (Z.ltb_spec (k * s * 4) W).
    + rewrite (steps_cons (k * s) cols); [|exact D|apply CM; lia]. fold s. f_equal. f_equal. lia.
    + rewrite !steps_nil; [reflexivity|exact D|apply BIG; lia|exact D|apply BIG; nia].
Qed.
Lemma steps_ne0 n dec : dec = 0 \/ dec = 1 -> filter (fun x => negb (x =? 0)) (steps 0 n dec) = steps (1 * Z.shiftl 1 dec) n dec.
Proof.
  clear. intros D. assert (S0 : 0 < Z.shiftl 1 dec) by (destruct D as [->| ->]; cbn; lia).
  assert (NZ : forall a, 0 < a -> filter (fun x => negb (x =? 0)) (steps a n dec) = steps a n dec).
  { intros a A. assert (F : forall x, In x (steps a n dec) -> x <> 0).
    { intros x I. apply in_steps in I; [|exact D]. destruct I as (i & I1 & -> & _). nia. }
    induction (steps a n dec) as [|x l IH]; [reflexivity|]. cbn [filter].
    rewrite (proj2 (Z.eqb_neq x 0)) by (apply F; left; reflexivity). cbn [negb]. f_equal. apply IH. intros z I. apply F. right. exact I. }
  destruct (Z_lt_le_dec 0 n).
  - rewrite (steps_cons 0 n) by (exact D || lia). cbn [filter Z.eqb negb]. rewrite Z.add_0_l, Z.mul_1_l. apply NZ. lia.
  - rewrite !steps_nil by (exact D || lia). reflexivity.
Qed.
Lemma filter_and {A} (f g : A -> bool) l : filter (fun x => g x && f x) l = filter f (filter g l).
Proof. induction l as [|a l IH]; [reflexivity|]. cbn [filter]. destruct (g a); cbn [andb filter]; [destruct (f a)|]; congruence. Qed.

Variables (bcols brows MiCols MiRows : Z).
Hypothesis (F0 : 0 < FW) (F1 : 0 < FH).
Hypothesis (BC : (FW + 3) / 4 <= bcols) (BR : (FH + 3) / 4 <= brows).
Hypothesis (MC : (FW + 3) / 4 <= MiCols) (MR : (FH + 3) / 4 <= MiRows).
Let cols := edge_count bcols FW xdec.
Let rows := edge_count brows FH ydec.
Let sx := Z.shiftl 1 xdec.
Let sy := Z.shiftl 1 ydec.

Lemma pass0 s : Spec.pass_filter (params_of d) info pli bd xdec ydec FW FH MiRows MiCols 0 s =
  fold_left (fun s e => match e with VE x y => spec_edge 0 y x s | HE x y => spec_edge 1 y x s end)
    (flat_map (fun y => map (fun x => VE x y) (steps sx cols xdec)) (steps 0 rows ydec)) s.
Proof.
  unfold Spec.pass_filter. rewrite spec_sx, spec_sy, !cells_steps by assumption.
  rewrite (fold_filter _ (fun y => y * 4 <? FH)).
  2:{ intros s0 r E. apply fold_id. intros s1 c. apply spec_off. apply Z.ltb_ge in E. lia. }
  pose proof (filter_steps brows FH ydec MiRows DY F1 BR MR 0) as E. cbn [Z.mul] in E. rewrite E. clear E. fold rows.
  rewrite fold_flat. apply fold_same. intros s0 r. rewrite fold_map.
  rewrite (fold_filter _ (fun x => negb (x =? 0) && (x * 4 <? FW))).
  2:{ intros s1 c E. apply spec_off. apply andb_false_iff in E as [E|E]; [apply negb_false_iff, Z.eqb_eq in E|apply Z.ltb_ge in E]; lia. }
  rewrite (filter_and (fun x => x * 4 <? FW)), steps_ne0 by exact DX. rewrite (filter_steps bcols FW xdec MiCols DX F0 BC MC).
  fold cols sx. rewrite Z.mul_1_l. reflexivity.
Qed.
Lemma pass1 s : Spec.pass_filter (params_of d) info pli bd xdec ydec FW FH MiRows MiCols 1 s =
  fold_left (fun s e => match e with VE x y => spec_edge 0 y x s | HE x y => spec_edge 1 y x s end)
    (flat_map (fun y => map (fun x => HE x y) (steps 0 cols xdec)) (steps sy rows ydec)) s.
Proof.
  unfold Spec.pass_filter. rewrite spec_sx, spec_sy, !cells_steps by assumption.
  rewrite (fold_filter _ (fun y => negb (y =? 0) && (y * 4 <? FH))).
  2:{ intros s0 r E. apply fold_id. intros s1 c. apply spec_off.
      apply andb_false_iff in E as [E|E]; [apply negb_false_iff, Z.eqb_eq in E|apply Z.ltb_ge in E]; lia. }
  rewrite (filter_and (fun y => y * 4 <? FH)), steps_ne0 by exact DY. rewrite (filter_steps brows FH ydec MiRows DY F1 BR MR).
  fold rows sy. rewrite Z.mul_1_l.
  rewrite fold_flat. apply fold_same. intros s0 r. rewrite fold_map.
  rewrite (fold_filter _ (fun x => x * 4 <? FW)).
  2:{ intros s1 c E. apply spec_off. apply Z.ltb_ge in E; lia. }
  pose proof (filter_steps bcols FW xdec MiCols DX F0 BC MC 0) as E. cbn [Z.mul] in E. rewrite E. fold cols. reflexivity.
Qed.

Notation fe := (filter_edge d blocks pli bd tbits xdec ydec).
Definition good_edge (e : edge) : Prop :=
  match e with
  | VE x y => exists kx ky, x = kx * 2 ^ xdec /\ y = ky * 2 ^ ydec /\ 0 < kx /\ 0 <= ky /\ x * 4 < FW /\ y * 4 < FH
  | HE x y => exists kx ky, x = kx * 2 ^ xdec /\ y = ky * 2 ^ ydec /\ 0 <= kx /\ 0 < ky /\ x * 4 < FW /\ y * 4 < FH
  end.
Lemma edges_spec l : Forall good_edge l -> forall p q, peq p q -> in_range p ->
  peq (fold_left fe l p) (fold_left (fun s e => match e with VE x y => spec_edge 0 y x s | HE x y => spec_edge 1 y x s end) l q) /\
  in_range (fold_left fe l p).
Proof.
  induction 1 as [|e l G F IH]; intros p q E R; cbn [fold_left]; [auto|].
  assert (RQ : in_range q) by (intros r c; rewrite <- E; apply R).
  apply IH.
  - eapply peq_trans; [apply fe_ext, E|].
    destruct e as [x y|x y]; destruct G as (kx & ky & -> & -> & G1 & G2 & G3 & G4); cbn [filter_edge].
    + apply v_edge; assumption.
    + apply h_edge; assumption.
  - destruct e as [x y|x y]; destruct G as (kx & ky & -> & -> & G1 & G2 & G3 & G4); cbn [filter_edge].
    + apply v_edge; assumption.
    + apply h_edge; assumption.
Qed.
Lemma good_v : Forall good_edge (flat_map (fun y => map (fun x => VE x y) (steps sx cols xdec)) (steps 0 rows ydec)).
Proof.
  apply Forall_flat_map. apply Forall_forall. intros y IY. apply Forall_map, Forall_forall. intros x IX.
  apply in_steps in IX; [|exact DX]. apply in_steps in IY; [|exact DY].
  destruct IX as (i & I1 & I2 & I3), IY as (j & J1 & J2 & J3). fold sx in I2. fold sy in J2.
  destruct (count_mult bcols FW xdec DX F0 BC) as (n & _ & _ & CX). destruct (count_mult brows FH ydec DY F1 BR) as (m & _ & _ & CY).
  fold cols sx in CX. fold rows sy in CY.
  assert (PX : sx = 2 ^ xdec) by (unfold sx; destruct DX as [->| ->]; reflexivity).
  assert (PY : sy = 2 ^ ydec) by (unfold sy; destruct DY as [->| ->]; reflexivity).
  exists (1 + i), j. rewrite <- PX, <- PY. split; [lia|]. split; [lia|]. split; [lia|]. split; [lia|].
  split; [replace x with ((1 + i) * sx) by lia; apply CX; lia|replace y with (j * sy) by lia; apply CY; lia].
Qed.
Lemma good_h : Forall good_edge (flat_map (fun y => map (fun x => HE x y) (steps 0 cols xdec)) (steps sy rows ydec)).
Proof.
  apply Forall_flat_map. apply Forall_forall. intros y IY. apply Forall_map, Forall_forall. intros x IX.
  apply in_steps in IX; [|exact DX]. apply in_steps in IY; [|exact DY].
  destruct IX as (i & I1 & I2 & I3), IY as (j & J1 & J2 & J3). fold sx in I2. fold sy in J2.
  destruct (count_mult bcols FW xdec DX F0 BC) as (n & _ & _ & CX). destruct (count_mult brows FH ydec DY F1 BR) as (m & _ & _ & CY).
  fold cols sx in CX. fold rows sy in CY.
  assert (PX : sx = 2 ^ xdec) by (unfold sx; destruct DX as [->| ->]; reflexivity).
  assert (PY : sy = 2 ^ ydec) by (unfold sy; destruct DY as [->| ->]; reflexivity).
  exists i, (1 + j). rewrite <- PX, <- PY. split; [lia|]. split; [lia|]. split; [lia|]. split; [lia|].
  split; [replace x with (i * sx) by lia; apply CX; lia|replace y with ((1 + j) * sy) by lia; apply CY; lia].
Qed.

Theorem deblock_is_spec p : in_range p ->
  peq (deblock_plane d blocks pli bd tbits xdec ydec bcols brows FW FH p)
      (Spec.loop_filter (params_of d) info pli bd xdec ydec FW FH MiRows MiCols p) /\
  in_range (deblock_plane d blocks pli bd tbits xdec ydec bcols brows FW FH p).
Proof.
  intros R.
  destruct (count_mult bcols FW xdec DX F0 BC) as (n & N0 & EN & _). destruct (count_mult brows FH ydec DY F1 BR) as (m & M0 & EM & _).
  assert (MAIN : peq (fold_left fe (edge_order xdec ydec cols rows) p)
      (Spec.pass_filter (params_of d) info pli bd xdec ydec FW FH MiRows MiCols 1 (Spec.pass_filter (params_of d) info pli bd xdec ydec FW FH MiRows MiCols 0 p)) /\
      in_range (fold_left fe (edge_order xdec ydec cols rows) p)).
  { rewrite pass0, pass1.
    pose proof (sorted_fold d blocks pli bd tbits xdec ydec _ p (order_pairs xdec ydec DX DY cols rows n m EN EM N0 M0)) as SF.
    rewrite (order_v xdec ydec DX DY cols rows n) in SF by assumption.
    rewrite (order_h xdec ydec DX DY cols rows n m) in SF by assumption. fold sx sy in SF.
    destruct (edges_spec _ good_v p p (peq_refl p) R) as [V1 V2].
    destruct (edges_spec _ good_h _ _ V1 V2) as [H1 H2].
    split; [eapply peq_trans; [exact SF|exact H1]|]. intros r c. rewrite SF. apply H2. }
  unfold deblock_plane, Spec.loop_filter. cbn [params_of Spec.loop_filter_level].
  assert (LZ : forall v b, pli = 0 -> d_levels d 0 = 0 -> d_levels d 1 = 0 -> deblock_adjusted_level d b pli v = 0).
  { intros v b -> E0 E1. unfold deblock_adjusted_level. rewrite OFF1, OFF2. destruct v; assumption. }
  destruct ((pli =? 0) && (d_levels d 0 =? 0) && (d_levels d 1 =? 0)) eqn:Z0.
  - rewrite !andb_true_iff, !Z.eqb_eq in Z0. destruct Z0 as [[E E0] E1]. rewrite (proj2 (Z.eqb_eq _ _) E). cbn [orb].
    split; [|exact R].
    assert (ID : forall l, fold_left fe l p = p).
    { intros l. apply fold_id. intros s [x y|x y]; cbn [filter_edge]; unfold filter_v_edge, filter_h_edge, v_level, h_level, deblock_level;
        rewrite !LZ by assumption; cbn [Z.eqb Z.ltb Z.compare]; rewrite andb_false_r; reflexivity. }
    rewrite ID in MAIN. apply MAIN.
  - clear Z0. destruct (Z.eqb_spec pli 0) as [E|N].
    { cbn [orb]. rewrite E. cbn [Z.eqb andb Z.ltb Z.compare Z.add Pos.compare Pos.compare_cont]. rewrite E in MAIN. exact MAIN. }
    assert (C : pli = 1 \/ pli = 2) by lia. cbn [orb].
    destruct C as [E|E]; rewrite E in *; cbn [Z.eqb andb Z.ltb Z.compare Z.add Pos.compare Pos.compare_cont Pos.eqb Pos.add Pos.succ].
    + destruct (d_levels d 2 =? 0); cbn [negb]; [split; [apply peq_refl|exact R]|exact MAIN].
    + destruct (d_levels d 3 =? 0); cbn [negb]; [split; [apply peq_refl|exact R]|exact MAIN].
Qed.
End Frame.
