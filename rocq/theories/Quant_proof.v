(** Proofs about the quantizer model. *)
From Verif Require Import Base Tile_model Config_model LogExp_model Quant_tables Scan_tables Quant_model.

Lemma sw_id n x : 0 < n -> - 2 ^ (n - 1) <= x < 2 ^ (n - 1) -> sw n x = x.
Proof.
  intros Hn H. unfold sw.
  assert (E : 2 ^ n = 2 * 2 ^ (n - 1)) by (rewrite <- Z.pow_succ_r by lia; f_equal; lia).
  rewrite Z.mod_small; lia.
Qed.
Lemma i64c_ok x : - 2 ^ 63 <= x < 2 ^ 63 -> i64c x = Some x.
Proof. intros H. unfold i64c. destruct (Z.leb_spec (- 2 ^ 63) x); destruct (Z.ltb_spec x (2 ^ 63)); cbn; try lia; reflexivity. Qed.
Lemma i32c_ok x : - 2 ^ 31 <= x < 2 ^ 31 -> i32c x = Some x.
Proof. intros H. unfold i32c. destruct (Z.leb_spec (- 2 ^ 31) x); destruct (Z.ltb_spec x (2 ^ 31)); cbn; try lia; reflexivity. Qed.
Lemma u32c_ok x : 0 <= x < 2 ^ 32 -> u32c x = Some x.
Proof. intros H. unfold u32c. destruct (Z.leb_spec 0 x); destruct (Z.ltb_spec x (2 ^ 32)); cbn; try lia; reflexivity. Qed.

(** ** Division by multiplication *)

Lemma land_pred_pow d m : 0 < d -> Z.log2 d = m -> Z.land d (d - 1) = 0 -> d = 2 ^ m.
Proof.
  intros Hd Hm Hl. pose proof (Z.log2_spec d Hd) as [L U]. rewrite Hm in L, U.
  pose proof (Z.log2_nonneg d). rewrite Hm in *.
  destruct (Z.eq_dec d (2 ^ m)) as [E|NE]; [exact E|exfalso].
  assert (T1 : Z.testbit d m = true) by (rewrite <- Hm; apply Z.bit_log2; lia).
  assert (T2 : Z.testbit (d - 1) m = true).
  { assert (Z.log2 (d - 1) = m) as <- by (apply Z.log2_unique; [lia|]; unfold Z.succ in *; lia).
    apply Z.bit_log2. lia. }
  assert (Z.testbit (Z.land d (d - 1)) m = false) by (rewrite Hl; apply Z.bits_0).
  rewrite Z.land_spec, T1, T2 in H0. discriminate.
Qed.
Lemma pow_land_pred m : 0 <= m -> Z.land (2 ^ m) (2 ^ m - 1) = 0.
Proof.
  intros Hm. replace (2 ^ m - 1) with (Z.ones m) by (rewrite Z.ones_equiv; lia).
  rewrite Z.land_ones, Z.mod_same by (try apply Z.pow_nonzero; lia). reflexivity.
Qed.

(** multiplication by a rounded up reciprocal *)
Lemma recip_up x d e K : 0 < d -> 0 < K -> 0 <= x -> 0 < e -> x * e < K ->
  forall a, a * d = K + e -> (a * x) / K = x / d.
Proof.
  intros Hd HK Hx He Hb a Ha. symmetry. apply Z.div_unique with (r := (a * x) - K * (x / d)); [|lia].
  left. set (q := x / d). assert (D : x = d * q + x mod d) by (apply Z.div_mod; lia).
  pose proof (Z.mod_pos_bound x d Hd) as [M1 M2].
  assert (Q : 0 <= q) by (apply Z.div_pos; lia).
  (* a x = ((K + e) x) / d *)
  assert (E : d * (a * x - K * q) = K * (x mod d) + e * x) by nia.
  split.
  - assert (0 <= K * (x mod d)) by (apply Z.mul_nonneg_nonneg; lia).
    assert (0 <= e * x) by (apply Z.mul_nonneg_nonneg; lia).
    apply Z.mul_le_mono_pos_l with (p := d); [lia|]. rewrite E. lia.
  - assert (K * (x mod d) <= K * (d - 1)) by (apply Z.mul_le_mono_nonneg_l; lia).
    apply Z.mul_lt_mono_pos_l with (p := d); [lia|]. rewrite E. lia.
Qed.
(** and by a rounded down one, with the numerator increased *)
Lemma recip_down x d e K : 0 < d -> 0 < K -> 0 <= x -> 0 < e -> (x + 1) * e <= K -> e < d ->
  forall a, a * d = K - e -> (a * x + a) / K = x / d.
Proof.
  intros Hd HK Hx He Hb Hed a Ha. symmetry. apply Z.div_unique with (r := (a * x + a) - K * (x / d)); [|lia].
  left. set (q := x / d). assert (D : x = d * q + x mod d) by (apply Z.div_mod; lia).
  pose proof (Z.mod_pos_bound x d Hd) as [M1 M2].
  assert (Q : 0 <= q) by (apply Z.div_pos; lia).
  assert (E : d * (a * x + a - K * q) = K * (x mod d + 1) - e * (x + 1)) by nia.
  split.
  - assert (K * 1 <= K * (x mod d + 1)) by (apply Z.mul_le_mono_nonneg_l; lia).
    apply Z.mul_le_mono_pos_l with (p := d); [lia|]. rewrite E. lia.
  - assert (K * (x mod d + 1) <= K * d) by (apply Z.mul_le_mono_nonneg_l; lia).
    assert (0 < e * (x + 1)) by (apply Z.mul_pos_pos; lia).
    apply Z.mul_lt_mono_pos_l with (p := d); [lia|]. rewrite E. lia.
Qed.

Lemma div_pow_is_pow (n : nat) d : 0 < d -> (d | 2 ^ Z.of_nat n) -> exists k, 0 <= k /\ d = 2 ^ k.
Proof.
  revert d. induction n as [|n IH]; intros d Hd Hv.
  - exists 0. split; [lia|]. apply Z.divide_1_r_nonneg in Hv; [exact Hv|lia].
  - rewrite Nat2Z.inj_succ, Z.pow_succ_r in Hv by lia.
    destruct (Z.Even_or_Odd d) as [[e He]|Ho].
    + destruct (IH e) as [k [K1 K2]]; [lia| |].
      * destruct Hv as [c Hc]. exists c. lia.
      * exists (k + 1). split; [lia|]. rewrite Z.pow_add_r by lia. lia.
    + apply IH; [lia|]. apply Znumtheory.Gauss with (b := 2); [exact Hv|].
      apply Znumtheory.Zgcd_1_rel_prime. 
      assert (G : (Z.gcd d 2 | 2)) by apply Z.gcd_divide_r.
      pose proof (Z.gcd_nonneg d 2). pose proof (Z.divide_pos_le (Z.gcd d 2) 2 ltac:(reflexivity) G).
      assert (Z.gcd d 2 <> 0) by (intros Z0; apply Z.gcd_eq_0_r in Z0; discriminate).
      destruct (Z.eq_dec (Z.gcd d 2) 2) as [E2|]; [|lia].
      destruct (Z.gcd_divide_l d 2) as [c Hc]. rewrite E2 in Hc. destruct Ho as [o Ho]. lia.
Qed.

Theorem divu_exact d x : 0 < d < 2 ^ 32 -> 0 <= x < 2 ^ 32 ->
  exists g, divu_gen d = Some g /\ divu_pair x g = Some (x / d).
Proof.
  intros Hd Hx. unfold divu_gen.
  set (m := 32 - (31 - Z.log2 d) - 1). assert (Em : m = Z.log2 d) by (unfold m; lia).
  pose proof (Z.log2_nonneg d) as Hm0. pose proof (Z.log2_spec d ltac:(lia)) as [L U]. rewrite <- Em in *. clearbody m.
  assert (Hm : m <= 31).
  { destruct (Z_le_gt_dec m 31) as [|G]; [assumption|].
    assert (2 ^ 32 <= 2 ^ m) by (apply Z.pow_le_mono_r; lia). lia. }
  assert (P : 0 < 2 ^ m) by (apply Z.pow_pos_nonneg; lia).
  rewrite Z.pow_succ_r in U by lia.
  assert (Sh : forall y, 0 <= y -> Z.shiftr (Z.shiftr y 32) m = y / 2 ^ (m + 32)).
  { intros y Hy. rewrite Z.shiftr_shiftr by lia. rewrite Z.shiftr_div_pow2 by lia. f_equal. f_equal. lia. }
  destruct (Z.eqb_spec (Z.land d (d - 1)) 0) as [E|NE].
  - apply land_pred_pow with (m := m) in E; [|lia|lia].
    eexists. split; [reflexivity|]. unfold divu_pair.
    destruct (Z.ltb_spec (4294967295 * x + 4294967295) (2 ^ 64)) as [|G]; [|lia].
    f_equal. rewrite Sh by lia.
    rewrite Z.pow_add_r by lia. rewrite (Z.mul_comm (2 ^ m)). rewrite <- Z.div_div by (try apply Z.pow_nonzero; lia).
    replace ((4294967295 * x + 4294967295) / 2 ^ 32) with x.
    2:{ apply Z.div_unique with (r := 4294967295 - x); lia. }
    rewrite E. apply u32_id. split; [apply Z.div_pos; lia|].
    apply Z.div_lt_upper_bound; nia.
  - assert (Dn : 2 ^ m < d).
    { destruct (Z.eq_dec d (2 ^ m)) as [->|]; [|lia]. exfalso. apply NE. apply pow_land_pred. lia. }
    assert (K : 2 ^ (m + 32) = 2 ^ m * 2 ^ 32) by (rewrite Z.pow_add_r by lia; reflexivity).
    assert (Hm1 : 2 ^ m <= 2 ^ 31) by (apply Z.pow_le_mono_r; lia).
    rewrite (u64_id (2 ^ (m + 32))) by (rewrite K; lia).
    set (K' := 2 ^ (m + 32)) in *. set (t := K' / d).
    assert (D : K' = d * t + K' mod d) by (apply Z.div_mod; lia).
    pose proof (Z.mod_pos_bound K' d ltac:(lia)) as [M1 M2].
    set (r0 := K' mod d) in *. clearbody r0.
    assert (T0 : 0 <= t) by (apply Z.div_pos; lia).
    assert (T1 : t < 2 ^ 32 - 1).
    { apply Z.div_lt_upper_bound; [lia|]. rewrite K. nia. }
    clearbody t.
    assert (ND : t * d + d = K' + (d - r0)) by lia.
    rewrite (u64_id (t * d + d)) by (rewrite ND; lia).
    rewrite ND. replace (2 ^ 32 - 1) with (Z.ones 32) by reflexivity.
    rewrite Z.land_ones by lia.
    assert (Rm : (K' + (d - r0)) mod 2 ^ 32 = d - r0).
    { rewrite K, Z.add_comm, Z.mod_add by lia. apply Z.mod_small. lia. }
    rewrite Rm. rewrite (u32_id t) by lia.
    destruct (Z.leb_spec (d - r0) (2 ^ m)) as [Hr|Hr].
    + rewrite u32c_ok by lia. eexists. split; [reflexivity|]. unfold divu_pair.
      destruct (Z.ltb_spec ((t + 1) * x + 0) (2 ^ 64)) as [|G]; [|nia].
      f_equal. rewrite Z.add_0_r, Sh by nia. fold K'.
      rewrite (recip_up x d (d - r0) K'); [apply u32_id; split; [apply Z.div_pos; lia|apply Z.div_lt_upper_bound; nia]|lia..|nia|lia].
    + eexists. split; [reflexivity|]. unfold divu_pair.
      destruct (Z.ltb_spec (t * x + t) (2 ^ 64)) as [|G]; [|nia].
      f_equal. rewrite Sh by nia. fold K'.
      destruct (Z.eq_dec r0 0) as [R|R].
      { (* d divides a power of two and is not one: excluded by the size of d *)
        exfalso. subst r0.
        assert (Dv : (d | 2 ^ (m + 32))) by (exists t; lia).
        rewrite <- (Z2Nat.id (m + 32)) in Dv by lia.
        destruct (div_pow_is_pow _ d ltac:(lia) Dv) as [k [K1 K2]].
        apply NE. rewrite K2. apply pow_land_pred. exact K1. }
      rewrite (recip_down x d r0 K'); [apply u32_id; split; [apply Z.div_pos; lia|apply Z.div_lt_upper_bound; nia]|lia..|nia|lia|lia].
Qed.
