(** Proofs about the range coder: the encoder refines exact interval
    arithmetic, and the specification's decoder inverts it. *)
From Verif Require Import Base EC_model EC_spec.


(** ** Valid tokens *)
Definition valid_token (t : token) : Prop :=
  (t_fl t = 32768 \/ 0 <= t_fl t < 32768) /\
  0 <= t_fh t < 32768 /\ t_fh t / 64 <= t_fl t / 64 /\ 1 <= t_nms t <= 16.

Definition rng_ok (r : Z) : Prop := 2 ^ 15 <= r < 2 ^ 16.

(** The two ends of a token's subinterval, measured from the top. *)
Definition tok_u (r : Z) (t : token) : Z :=
  if 32768 <=? t_fl t then r else ((r / 256) * (t_fl t / 64)) / 2 + 4 * t_nms t.
Definition tok_v (r : Z) (t : token) : Z :=
  ((r / 256) * (t_fh t / 64)) / 2 + 4 * (t_nms t - 1).

Lemma tok_bounds r t : rng_ok r -> valid_token t ->
  0 <= tok_v r t /\ tok_v r t + 4 <= tok_u r t /\ tok_u r t <= r.
Proof.
  unfold rng_ok, valid_token, tok_u, tok_v. intros Hr (Hfl & Hfh & Hle & Hn).
  set (q := r / 256) in *. assert (Hq : 128 <= q <= 255) by (unfold q; dlia).
  assert (Hqr : 256 * q <= r) by (unfold q; dlia). clearbody q.
  set (a := t_fl t / 64) in *. set (b := t_fh t / 64) in *.
  assert (Hb : 0 <= b <= 511) by (unfold b; dlia).
  destruct Hfl as [Hfl|Hfl].
  - rewrite Hfl. cbn [Z.leb Z.compare Pos.compare Pos.compare_cont].
    assert (Hqb : 0 <= q * b <= q * 511) by nia. dlia.
  - destruct (Z.leb_spec 32768 (t_fl t)); [lia|].
    assert (Ha : 0 <= a <= 511) by (unfold a; dlia).
    assert (Hqa : 0 <= q * a <= q * 511) by nia.
    assert (Hqb : 0 <= q * b <= q * a) by nia. dlia.
Qed.

Lemma lr_compute_eq r t : rng_ok r -> valid_token t ->
  lr_compute r t = (r - tok_u r t, tok_u r t - tok_v r t).
Proof.
  intros Hr Ht. pose proof (tok_bounds r t Hr Ht) as (H1 & H2 & H3).
  unfold lr_compute, EC_PROB_SHIFT, EC_MIN_PROB.
  change (2 ^ 6) with 64. change (2 ^ (7 - 6)) with 2.
  fold (tok_u r t). fold (tok_v r t).
  rewrite u16_id; [reflexivity|]. unfold rng_ok in Hr. lia.
Qed.

(** Renormalisation shift. *)
Lemma lz16_spec x : 1 <= x < 2 ^ 16 ->
  0 <= lz16 x <= 15 /\ 2 ^ 15 <= x * 2 ^ lz16 x < 2 ^ 16.
Proof.
  intros Hx. unfold lz16.
  pose proof (Z.log2_spec x ltac:(lia)) as [H1 H2].
  assert (Hl0 : 0 <= Z.log2 x) by apply Z.log2_nonneg.
  assert (Hl : Z.log2 x <= 15).
  { destruct (Z.le_gt_cases (Z.log2 x) 15); [assumption|].
    assert (2 ^ 16 <= 2 ^ Z.log2 x) by (apply Z.pow_le_mono_r; lia). lia. }
  split; [lia|].
  assert (E : 2 ^ 15 = 2 ^ Z.log2 x * 2 ^ (15 - Z.log2 x)).
  { rewrite <- Z.pow_add_r by lia. f_equal. lia. }
  assert (E' : 2 ^ 16 = 2 ^ Z.succ (Z.log2 x) * 2 ^ (15 - Z.log2 x)).
  { rewrite <- Z.pow_add_r by lia. f_equal. lia. }
  assert (0 < 2 ^ (15 - Z.log2 x)) by (apply Z.pow_pos_nonneg; lia).
  nia.
Qed.

(** ** Exact interval arithmetic *)
Record exact := Exact { x_low : Z; x_rng : Z; x_shift : Z }.
Definition x_new : exact := Exact 0 32768 0.
Definition x_step (x : exact) (t : token) : exact :=
  let r := x_rng x in
  let d := lz16 (tok_u r t - tok_v r t) in
  Exact ((x_low x + (r - tok_u r t)) * 2 ^ d) ((tok_u r t - tok_v r t) * 2 ^ d) (x_shift x + d).

Definition x_ok (x : exact) : Prop :=
  rng_ok (x_rng x) /\ 0 <= x_low x /\ 0 <= x_shift x /\
  x_low x + x_rng x <= 2 ^ (15 + x_shift x).

Definition x_d (x : exact) (t : token) : Z := lz16 (tok_u (x_rng x) t - tok_v (x_rng x) t).

Lemma x_new_ok : x_ok x_new.
Proof. unfold x_ok, x_new, rng_ok; cbn. lia. Qed.

Lemma x_d_range x t : x_ok x -> valid_token t -> 0 <= x_d x t <= 15.
Proof.
  intros (Hr & _) Ht. pose proof (tok_bounds _ _ Hr Ht). unfold x_d.
  unfold rng_ok in Hr. apply lz16_spec. lia.
Qed.

Lemma x_step_ok x t : x_ok x -> valid_token t -> x_ok (x_step x t).
Proof.
  intros (Hr & Hl & Hs & Ht) Hv.
  pose proof (tok_bounds _ _ Hr Hv) as (B1 & B2 & B3).
  unfold x_step, x_ok; cbn [x_rng x_low x_shift].
  set (u := tok_u (x_rng x) t) in *. set (v := tok_v (x_rng x) t) in *.
  assert (Hrr : 1 <= u - v < 2 ^ 16) by (unfold rng_ok in Hr; lia).
  pose proof (lz16_spec _ Hrr) as (D1 & D2).
  set (d := lz16 (u - v)) in *.
  assert (P : 0 < 2 ^ d) by (apply Z.pow_pos_nonneg; lia).
  replace (15 + (x_shift x + d)) with ((15 + x_shift x) + d) by lia.
  rewrite Z.pow_add_r by lia.
  unfold rng_ok in *. nia.
Qed.

Definition x_encode (x : exact) (ts : list token) : exact := fold_left x_step ts x.

Lemma x_encode_ok ts x : x_ok x -> Forall valid_token ts -> x_ok (x_encode x ts).
Proof.
  revert x; induction ts as [|t ts IH]; intros x Hx H; [exact Hx|].
  inversion H; subst. cbn. apply IH; [apply x_step_ok|]; assumption.
Qed.

(** ** The encoder refines exact arithmetic *)
Definition pv (l : list Z) : Z := digits_val 256 l.

Definition enc_rel (w : encoder) (x : exact) : Prop :=
  e_rng w = x_rng x /\
  -9 <= e_cnt w <= -1 /\
  15 + x_shift x = 8 * zlen (e_precarry w) + 24 + e_cnt w /\
  x_low x = pv (e_precarry w) * 2 ^ (24 + e_cnt w) + e_low w /\
  0 <= e_low w /\ e_low w + e_rng w <= 2 ^ (25 + e_cnt w) /\
  Forall (fun b => 0 <= b < 512) (e_precarry w).

Lemma enc_new_rel : enc_rel enc_new x_new.
Proof. unfold enc_rel, enc_new, x_new; cbn. repeat split; try lia; constructor. Qed.

Lemma div_lt_pow a n k : 0 <= a < 2 ^ (n + k) -> 0 <= n -> 0 <= k -> 0 <= a / 2 ^ n < 2 ^ k.
Proof.
  intros Ha Hn Hk. rewrite Z.pow_add_r in Ha by lia.
  assert (0 < 2 ^ n) by (apply Z.pow_pos_nonneg; lia).
  split; [apply Z.div_pos; lia|]. apply Z.div_lt_upper_bound; lia.
Qed.

Lemma pow2_le a b : 0 <= a <= b -> 2 ^ a <= 2 ^ b.
Proof. intros; apply Z.pow_le_mono_r; lia. Qed.

Lemma enc_store_rel w x t :
  x_ok x -> enc_rel w x -> valid_token t -> enc_rel (enc_store w t) (x_step x t).
Proof.
  intros Hx (Erng & Hc & Hsh & Hlow & Hl0 & Hl1 & Hpc) Hv.
  pose proof Hx as (Hr & HxL & HxS & HxT).
  pose proof (tok_bounds _ _ Hr Hv) as (B1 & B2 & B3).
  unfold enc_store. rewrite Erng, lr_compute_eq by assumption.
  unfold x_step.
  set (r := x_rng x) in *. set (u := tok_u r t) in *. set (v := tok_v r t) in *.
  assert (Hrr : 1 <= u - v < 2 ^ 16) by (unfold rng_ok in Hr; lia).
  pose proof (lz16_spec _ Hrr) as (D1 & D2).
  set (d := lz16 (u - v)) in *.
  assert (Pd : 0 < 2 ^ d) by (apply Z.pow_pos_nonneg; lia).
  set (c := e_cnt w) in *.
  assert (Hpw : 2 ^ (25 + c) <= 2 ^ 24) by (apply pow2_le; lia).
  rewrite Erng in Hl1.
  assert (Hlow1 : 0 <= r - u + e_low w /\ (r - u + e_low w) + (u - v) <= 2 ^ (25 + c)) by lia.
  set (low := r - u + e_low w) in *.
  rewrite (u32_id low) by (change (2 ^ 24) with 16777216 in *; change (2 ^ 32) with 4294967296; lia).
  rewrite (u16_id ((u - v) * 2 ^ d)) by lia.
  assert (Elow : x_low x + (r - u) = pv (e_precarry w) * 2 ^ (24 + c) + low) by (unfold low; lia).
  (* facts used in the pushing cases *)
  assert (Hr' : (u - v) * 2 ^ d < 2 ^ 16) by lia.
  destruct (Z.leb_spec 0 (c + d)) as [Hs|Hs].
  - destruct (Z.leb_spec 8 (c + d)) as [Hs8|Hs8].
    + (* two bytes *)
      set (C := c + 16) in *.
      assert (HC : 7 <= C <= 15) by lia.
      assert (Q1 : 0 <= low / 2 ^ C < 2 ^ 9) by (apply div_lt_pow; try lia; replace (C + 9) with (25 + c) by lia; lia).
      assert (PC : 0 < 2 ^ C) by (apply Z.pow_pos_nonneg; lia).
      pose proof (Z.mod_pos_bound low (2 ^ C) PC) as M1.
      pose proof (Z.div_mod low (2 ^ C) ltac:(lia)) as DM1.
      set (low1 := low mod 2 ^ C) in *. set (q1 := low / 2 ^ C) in *.
      assert (HC8 : 0 <= C - 8) by lia.
      assert (PC8 : 0 < 2 ^ (C - 8)) by (apply Z.pow_pos_nonneg; lia).
      assert (Q2 : 0 <= low1 / 2 ^ (C - 8) < 2 ^ 8).
      { apply div_lt_pow; try lia. replace (C - 8 + 8) with C by lia. lia. }
      pose proof (Z.mod_pos_bound low1 (2 ^ (C - 8)) PC8) as M2.
      pose proof (Z.div_mod low1 (2 ^ (C - 8)) ltac:(lia)) as DM2.
      set (low2 := low1 mod 2 ^ (C - 8)) in *. set (q2 := low1 / 2 ^ (C - 8)) in *.
      rewrite (u16_id q1) by (change (2 ^ 9) with 512 in *; change (2 ^ 16) with 65536; lia).
      rewrite (u16_id q2) by (change (2 ^ 8) with 256 in *; change (2 ^ 16) with 65536; lia).
      assert (W : 2 ^ (C - 8) * 2 ^ d = 2 ^ (C - 8 + d)) by (rewrite Z.pow_add_r; lia).
      assert (W2 : 2 ^ (C - 8 + d) <= 2 ^ 23) by (apply pow2_le; lia).
      assert (L2 : 0 <= low2 * 2 ^ d < 2 ^ (C - 8 + d)) by nia.
      rewrite (u32_id (low2 * 2 ^ d)) by (change (2 ^ 23) with 8388608 in *; change (2 ^ 32) with 4294967296; lia).
      unfold enc_rel; cbn [e_rng e_cnt e_precarry e_low x_rng x_low x_shift].
      assert (W16 : 2 ^ 16 <= 2 ^ (C - 8 + d)) by (apply pow2_le; lia).
      split; [reflexivity|]. split; [lia|].
      split. { rewrite !zlen_app, !zlen_cons, !zlen_nil. lia. }
      split.
      { unfold pv. rewrite !digits_val_snoc. fold (pv (e_precarry w)).
        replace (24 + (C - 8 + d - 24)) with (C - 8 + d) by lia.
        rewrite <- W, Elow.
        replace (24 + c) with (8 + (8 + (C - 8))) by lia.
        rewrite !Z.pow_add_r by lia. change (2 ^ 8) with 256.
        assert (E2 : 2 ^ C = 256 * 2 ^ (C - 8)).
        { replace C with (8 + (C - 8)) at 1 by lia. rewrite Z.pow_add_r by lia. reflexivity. }
        rewrite DM1, E2. rewrite DM2. ring. }
      split; [lia|].
      split.
      { replace (25 + (C - 8 + d - 24)) with (1 + (C - 8 + d)) by lia.
        rewrite (Z.pow_add_r 2 1) by lia. change (2 ^ 1) with 2. lia. }
      rewrite !Forall_app. repeat split; try assumption; repeat constructor.
      all: change (2 ^ 9) with 512 in *; change (2 ^ 8) with 256 in *; lia.
    + (* one byte *)
      set (C := c + 16) in *.
      assert (HC : 7 <= C <= 15) by lia.
      assert (Q1 : 0 <= low / 2 ^ C < 2 ^ 9) by (apply div_lt_pow; try lia; replace (C + 9) with (25 + c) by lia; lia).
      assert (PC : 0 < 2 ^ C) by (apply Z.pow_pos_nonneg; lia).
      pose proof (Z.mod_pos_bound low (2 ^ C) PC) as M1.
      pose proof (Z.div_mod low (2 ^ C) ltac:(lia)) as DM1.
      set (low1 := low mod 2 ^ C) in *. set (q1 := low / 2 ^ C) in *.
      rewrite (u16_id q1) by (change (2 ^ 9) with 512 in *; change (2 ^ 16) with 65536; lia).
      assert (W : 2 ^ C * 2 ^ d = 2 ^ (C + d)) by (rewrite Z.pow_add_r; lia).
      assert (W2 : 2 ^ (C + d) <= 2 ^ 23) by (apply pow2_le; lia).
      assert (L2 : 0 <= low1 * 2 ^ d < 2 ^ (C + d)) by nia.
      rewrite (u32_id (low1 * 2 ^ d)) by (change (2 ^ 23) with 8388608 in *; change (2 ^ 32) with 4294967296; lia).
      unfold enc_rel; cbn [e_rng e_cnt e_precarry e_low x_rng x_low x_shift].
      assert (W16 : 2 ^ 16 <= 2 ^ (C + d)) by (apply pow2_le; lia).
      split; [reflexivity|]. split; [lia|].
      split. { rewrite !zlen_app, !zlen_cons, !zlen_nil. lia. }
      split.
      { unfold pv. rewrite !digits_val_snoc. fold (pv (e_precarry w)).
        replace (24 + (C + d - 24)) with (C + d) by lia.
        rewrite <- W, Elow.
        replace (24 + c) with (8 + C) by lia.
        rewrite !Z.pow_add_r by lia. change (2 ^ 8) with 256.
        rewrite DM1. ring. }
      split; [lia|].
      split.
      { replace (25 + (C + d - 24)) with (1 + (C + d)) by lia.
        rewrite (Z.pow_add_r 2 1) by lia. change (2 ^ 1) with 2. lia. }
      rewrite !Forall_app. repeat split; try assumption; repeat constructor.
      all: change (2 ^ 9) with 512 in *; lia.
  - (* nothing written *)
    assert (W : 2 ^ (25 + c) * 2 ^ d = 2 ^ (25 + (c + d))) by (rewrite <- Z.pow_add_r by lia; f_equal; lia).
    assert (W2 : 2 ^ (25 + (c + d)) <= 2 ^ 24) by (apply pow2_le; lia).
    assert (L2 : 0 <= low * 2 ^ d /\ low * 2 ^ d + (u - v) * 2 ^ d <= 2 ^ (25 + (c + d))) by nia.
    rewrite (u32_id (low * 2 ^ d)) by (change (2 ^ 24) with 16777216 in *; change (2 ^ 32) with 4294967296; lia).
    unfold enc_rel; cbn [e_rng e_cnt e_precarry e_low x_rng x_low x_shift].
    split; [reflexivity|]. split; [lia|]. split; [lia|]. split.
    { rewrite Elow. replace (24 + (c + d)) with (24 + c + d) by lia.
      rewrite (Z.pow_add_r 2 (24 + c)) by lia. ring. }
    split; [lia|]. split; [lia|]. assumption.
Qed.

Definition enc_all (w : encoder) (ts : list token) : encoder := fold_left enc_store ts w.

Lemma enc_all_rel ts w x :
  x_ok x -> enc_rel w x -> Forall valid_token ts -> enc_rel (enc_all w ts) (x_encode x ts).
Proof.
  revert w x; induction ts as [|t ts IH]; intros w x Hx Hw H; [exact Hw|].
  inversion H; subst. cbn. apply IH; [apply x_step_ok|apply enc_store_rel|]; assumption.
Qed.

(** ** Termination of the stream *)
Lemma land_even k : Z.land (2 * k) 1 = 0.
Proof. change 1 with (Z.ones 1). rewrite Z.land_ones by lia. rewrite Z.mul_comm. apply Z.mod_mul. lia. Qed.

Lemma lor_1 a : a <= Z.lor a 1 <= a + 1.
Proof.
  destruct (Z.Even_or_Odd a) as [[k ->]|[k ->]].
  - replace (Z.lor (2 * k) 1) with (2 * k + 1); [lia|].
    rewrite Z.add_nocarry_lxor by (apply land_even).
    apply Z.lxor_lor. apply land_even.
  - replace (Z.lor (2 * k + 1) 1) with (2 * k + 1); [lia|].
    rewrite (Z.add_nocarry_lxor (2 * k)) by (apply land_even).
    rewrite Z.lxor_lor by (apply land_even).
    rewrite <- Z.lor_assoc. reflexivity.
Qed.

Lemma done_e l : 0 <= l ->
  let e := Z.lor (Z.land (l + 16383) (Z.lnot 16383)) (16383 + 1) in
  l <= e < l + 2 ^ 15 /\ e mod 2 ^ 14 = 0 /\ e mod 2 ^ 15 = 2 ^ 14.
Proof.
  intros Hl e.
  assert (He : e = 2 ^ 14 * Z.lor ((l + 16383) / 2 ^ 14) 1).
  { unfold e. change (16383 + 1) with (Z.shiftl 1 14).
    replace (Z.land (l + 16383) (Z.lnot 16383)) with (Z.ldiff (l + 16383) (Z.ones 14)).
    2:{ apply Z.bits_inj'. intros n Hn.
        rewrite Z.ldiff_spec, Z.land_spec, Z.lnot_spec by lia.
        change (Z.ones 14) with 16383. reflexivity. }
    rewrite Z.ldiff_ones_r by lia. rewrite <- Z.shiftl_lor.
    rewrite Z.shiftl_mul_pow2, Z.shiftr_div_pow2 by lia. apply Z.mul_comm. }
  change (2 ^ 14) with 16384 in *. change (2 ^ 15) with 32768.
  set (a := (l + 16383) / 16384) in *.
  assert (Ha : l <= 16384 * a <= l + 16383) by (unfold a; dlia).
  assert (Hor : a <= Z.lor a 1 <= a + 1).
  { clearbody a. apply lor_1. }
  split; [lia|]. split; [rewrite He, Z.mul_comm; apply Z.mod_mul; lia|].
  assert (Hodd : (Z.lor a 1) mod 2 = 1).
  { change 2 with (2 ^ 1). rewrite <- Z.land_ones by lia. change (Z.ones 1) with 1.
    rewrite Z.land_lor_distr_l. change (Z.land 1 1) with 1.
    change 1 with (Z.ones 1) at 1. rewrite Z.land_ones by lia.
    assert (M : a mod 2 ^ 1 = 0 \/ a mod 2 ^ 1 = 1) by (change (2 ^ 1) with 2; dlia).
    destruct M as [-> | ->]; reflexivity. }
  rewrite He. clearbody a. dlia.
Qed.

Lemma flush_loop_spec pc e c :
  -9 <= c <= -1 -> 0 <= e < 2 ^ (25 + c) -> e mod 2 ^ 14 = 0 ->
  Forall (fun b => 0 <= b < 512) pc ->
  exists pc' k,
    flush_loop 4 pc e (10 + c) c = Some pc' /\
    0 <= 24 + c - 8 * k /\
    k = (10 + c + 7) / 8 /\
    zlen pc' = zlen pc + k /\
    pv pc' * 2 ^ (24 + c - 8 * k) = pv pc * 2 ^ (24 + c) + e /\
    Forall (fun b => 0 <= b < 512) pc'.
Proof.
  intros Hc He Hm Hpc.
  set (C := c + 16). assert (HC : 7 <= C <= 15) by lia.
  assert (PC : 0 < 2 ^ C) by (apply Z.pow_pos_nonneg; lia).
  assert (Q1 : 0 <= e / 2 ^ C < 2 ^ 9) by (apply div_lt_pow; try lia; replace (C + 9) with (25 + c) by lia; lia).
  pose proof (Z.mod_pos_bound e (2 ^ C) PC) as M1.
  pose proof (Z.div_mod e (2 ^ C) ltac:(lia)) as DM1.
  change (2 ^ 9) with 512 in Q1.
  unfold flush_loop. fold C.
  destruct (Z.leb_spec (10 + c) 0); [lia|].
  destruct (Z.leb_spec (10 + c - 8) 0) as [Hone|Htwo].
  - exists (pc ++ [u16 (e / 2 ^ C)]), 1.
    rewrite u16_id by (change (2 ^ 16) with 65536; lia).
    assert (K0 : e mod 2 ^ C = 0).
    { replace 14 with (C + (14 - C)) in Hm by lia.
      rewrite Z.pow_add_r in Hm by lia.
      assert (P14 : 0 < 2 ^ (14 - C)) by (apply Z.pow_pos_nonneg; lia).
      rewrite Z.rem_mul_r in Hm by lia.
      pose proof (Z.mod_pos_bound (e / 2 ^ C) (2 ^ (14 - C)) P14). nia. }
    split; [reflexivity|]. split; [lia|]. split; [dlia|].
    split; [rewrite zlen_app, zlen_cons, zlen_nil; lia|]. split.
    + unfold pv. rewrite digits_val_snoc. replace (24 + c - 8 * 1) with C by lia.
      replace (24 + c) with (8 + C) by lia. rewrite (Z.pow_add_r 2 8) by lia.
      change (2 ^ 8) with 256. lia.
    + rewrite Forall_app; split; [assumption|]. repeat constructor; lia.
  - assert (c = -1) by lia. subst c. change C with 15 in *. clear C.
    destruct (Z.leb_spec (10 + -1 - 8 - 8) 0); [|lia].
    change (-1 - 8 + 16) with 7.
    exists ((pc ++ [u16 (e / 2 ^ 15)]) ++ [u16 ((e mod 2 ^ 15) / 2 ^ 7)]), 2.
    change (24 + -1 - 8 * 2) with 7. change (24 + -1) with (16 + 7).
    assert (K0 : (e mod 2 ^ 15) mod 2 ^ 7 = 0).
    { change (2 ^ 15) with 32768 in *. change (2 ^ 7) with 128 in *. change (2 ^ 14) with 16384 in *. dlia. }
    pose proof (Z.div_mod (e mod 2 ^ 15) (2 ^ 7) ltac:(lia)) as DM2.
    assert (Q2 : 0 <= (e mod 2 ^ 15) / 2 ^ 7 < 2 ^ 8) by (apply div_lt_pow; lia).
    change (2 ^ 8) with 256 in Q2.
    rewrite !u16_id by (change (2 ^ 16) with 65536; lia).
    split; [reflexivity|]. split; [lia|]. split; [reflexivity|].
    split; [rewrite !zlen_app, !zlen_cons, !zlen_nil; lia|]. split.
    + unfold pv. rewrite !digits_val_snoc. 
      rewrite (Z.pow_add_r 2 16) by lia. change (2 ^ 16) with 65536.
      change (2 ^ 15) with (256 * 2 ^ 7) in DM1 at 1. lia.
    + rewrite !Forall_app; repeat split; try assumption; repeat constructor; lia.
Qed.

Lemma carry_spec pc : Forall (fun b => 0 <= b < 512) pc ->
  let '(co, out) := carry pc in
  0 <= co <= 2 /\ bytes out /\ zlen out = zlen pc /\
  co * 256 ^ zlen pc + digits_val 256 out = pv pc.
Proof.
  induction 1 as [|x pc Hx Hpc IH].
  - cbn. repeat split; try lia. constructor.
  - cbn [carry]. destruct (carry pc) as [co out].
    destruct IH as (H1 & H2 & H3 & H4).
    rewrite u16_id by (change (2 ^ 16) with 65536; lia).
    unfold u8. change (2 ^ 8) with 256.
    assert (B : 0 <= (co + x) mod 256 < 256) by dlia.
    repeat split; try dlia.
    + constructor; [exact B|exact H2].
    + rewrite !zlen_cons. lia.
    + rewrite zlen_cons, digits_val_cons. unfold pv. rewrite digits_val_cons. fold (pv pc).
      rewrite H3, <- H4. rewrite Z.pow_add_r, Z.pow_1_r by (pose proof (zlen_nonneg _ pc); lia).
      pose proof (Z.div_mod (co + x) 256 ltac:(lia)). nia.
Qed.

Lemma enc_done_spec w x : x_ok x -> enc_rel w x ->
  exists out k,
    enc_done w = Some out /\ bytes out /\
    zlen out = zlen (e_precarry w) + k /\ k = (10 + e_cnt w + 7) / 8 /\
    0 <= 24 + e_cnt w - 8 * k /\
    x_low x <= digits_val 256 out * 2 ^ (24 + e_cnt w - 8 * k) < x_low x + x_rng x /\
    (digits_val 256 out * 2 ^ (24 + e_cnt w - 8 * k)) mod 2 ^ 15 = 2 ^ 14.
Proof.
  intros (Hr & HxL & HxS & HxT) (Erng & Hc & Hsh & Hlow & Hl0 & Hl1 & Hpc).
  pose proof (done_e (e_low w) Hl0) as (E1 & E2 & E3).
  unfold enc_done. set (e := Z.lor _ _) in *.
  unfold rng_ok in Hr.
  destruct (flush_loop_spec (e_precarry w) e (e_cnt w)) as (pc & k & F & K0 & K & Zl & V & B);
    try assumption; [lia|].
  rewrite F. pose proof (carry_spec pc B) as HC.
  destruct (carry pc) as [co out]. destruct HC as (C1 & C2 & C3 & C4).
  assert (Hn := zlen_nonneg _ (e_precarry w)).
  assert (P0 : 0 < 2 ^ (24 + e_cnt w - 8 * k)) by (apply Z.pow_pos_nonneg; lia).
  assert (Hk : 0 <= k) by dlia.
  assert (Hco : co = 0).
  { assert (D := digits_val_bound 256 out ltac:(lia) C2).
    assert (P256 : 0 < 256 ^ zlen pc) by (apply Z.pow_pos_nonneg; lia).
    assert (Top : pv pc * 2 ^ (24 + e_cnt w - 8 * k) < 2 ^ (15 + x_shift x)) by lia.
    replace (15 + x_shift x) with (8 * zlen pc + (24 + e_cnt w - 8 * k)) in Top by lia.
    rewrite Z.pow_add_r in Top by lia. rewrite Z.pow_mul_r in Top by lia.
    change (2 ^ 8) with 256 in Top.
    assert (pv pc < 256 ^ zlen pc) by nia. nia. }
  subst co. exists out, k.
  split; [reflexivity|]. split; [exact C2|]. split; [lia|]. split; [exact K|]. split; [exact K0|].
  replace (digits_val 256 out) with (pv pc) by lia. split; [lia|].
  rewrite V. replace (24 + e_cnt w) with (9 + e_cnt w + 15) by lia.
  rewrite Z.pow_add_r by lia. rewrite Z.mul_assoc, Z.add_comm, Z.mod_add by lia. exact E3.
Qed.

Lemma enc_done_some w x : x_ok x -> enc_rel w x -> enc_done w <> None.
Proof. intros A B. destruct (enc_done_spec w x A B) as (? & ? & -> & _). discriminate. Qed.
