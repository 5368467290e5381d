(** Integral images and box sums (for Sgr_model). *)
From Verif Require Import Base Sgr_model.
From Verif Require Sgr_spec.
Local Open Scope Z_scope.
Notation sum := Sgr_spec.sum.

(** ** Rounding *)
Lemma round2_shift x n : 0 <= n -> Z.shiftr (x + Z.shiftr (Z.shiftl 1 n) 1) n = Sgr_spec.Round2 x n.
Proof.
  intros H. unfold Sgr_spec.Round2. rewrite Z.shiftl_mul_pow2, Z.mul_1_l by lia.
  rewrite !Z.shiftr_div_pow2 by lia. change (2 ^ 1) with 2. destruct (Z.eqb_spec n 0) as [->|N].
  - change (2 ^ 0) with 1. change (1 / 2) with 0. rewrite Z.div_1_r. lia.
  - replace (2 ^ n) with (2 ^ (n - 1) * 2) at 1 by (replace n with (n - 1 + 1) at 2 by lia; rewrite Z.pow_add_r by lia; reflexivity).
    rewrite Z.div_mul by lia. reflexivity.
Qed.
Lemma half_pow n : 0 <= n -> Z.shiftr (Z.shiftl 1 n) 1 = 2 ^ n / 2.
Proof. intros. rewrite Z.shiftl_mul_pow2, Z.mul_1_l by lia. rewrite Z.shiftr_div_pow2 by lia. reflexivity. Qed.
Lemma round2_bounds x n : 0 <= n -> 0 <= x -> 0 <= Sgr_spec.Round2 x n /\
  2 ^ n * Sgr_spec.Round2 x n <= x + 2 ^ n / 2 < 2 ^ n * Sgr_spec.Round2 x n + 2 ^ n.
Proof.
  intros Hn Hx. rewrite <- round2_shift by exact Hn. rewrite half_pow by exact Hn. rewrite Z.shiftr_div_pow2 by exact Hn.
  assert (P : 0 < 2 ^ n) by (apply Z.pow_pos_nonneg; lia). assert (0 <= 2 ^ n / 2) by (apply Z.div_pos; lia).
  set (h := 2 ^ n / 2) in *. clearbody h. set (q := 2 ^ n) in *. clearbody q.
  split; [apply Z.div_pos; lia|]. pose proof (Z.div_mod (x + h) q). pose proof (Z.mod_pos_bound (x + h) q P). lia.
Qed.

(** ** Sums *)
Lemma sum_S f lo m : sum f lo (S m) = sum f lo m + f (lo + Z.of_nat m).
Proof. reflexivity. Qed.
Lemma sum_ext f g lo m : (forall i, lo <= i < lo + Z.of_nat m -> f i = g i) -> sum f lo m = sum g lo m.
Proof. induction m as [|m IH]; intros H; cbn [Sgr_spec.sum]; [reflexivity|]. rewrite IH by (intros; apply H; lia). rewrite H by lia. reflexivity. Qed.
Lemma sum_app f lo a b : sum f lo (a + b) = sum f lo a + sum f (lo + Z.of_nat a) b.
Proof.
  induction b as [|b IH]; [rewrite Nat.add_0_r; cbn; lia|]. rewrite Nat.add_succ_r. cbn [Sgr_spec.sum]. rewrite IH.
  rewrite Nat2Z.inj_add. rewrite Z.add_assoc. lia.
Qed.
Lemma sum_shift f lo k m : sum f (lo + k) m = sum (fun i => f (i + k)) lo m.
Proof. induction m as [|m IH]; cbn [Sgr_spec.sum]; [reflexivity|]. rewrite IH. do 2 f_equal. lia. Qed.
Lemma sum_sub f g lo m : sum f lo m - sum g lo m = sum (fun i => f i - g i) lo m.
Proof. induction m as [|m IH]; cbn [Sgr_spec.sum]; lia. Qed.
Lemma sum_add f g lo m : sum f lo m + sum g lo m = sum (fun i => f i + g i) lo m.
Proof. induction m as [|m IH]; cbn [Sgr_spec.sum]; lia. Qed.
Lemma sum_bound f lo m M : (forall i, lo <= i < lo + Z.of_nat m -> 0 <= f i <= M) -> 0 <= sum f lo m <= Z.of_nat m * M.
Proof.
  induction m as [|m IH]; intros H; cbn [Sgr_spec.sum]; [lia|].
  assert (0 <= sum f lo m <= Z.of_nat m * M) by (apply IH; intros; apply H; lia).
  assert (0 <= f (lo + Z.of_nat m) <= M) by (apply H; lia). lia.
Qed.

(** ** One row of the integral images *)
Lemma for_S {A} lo (f : Z -> A -> A) m s : for_ lo (lo + Z.of_nat (S m)) f s = f (lo + Z.of_nat m) (for_ lo (lo + Z.of_nat m) f s).
Proof. unfold for_. replace (Z.to_nat (lo + Z.of_nat (S m) - lo)) with (S m) by lia. replace (Z.to_nat (lo + Z.of_nat m - lo)) with m by lia. reflexivity. Qed.
Lemma for_0 {A} lo hi (f : Z -> A -> A) s : hi <= lo -> for_ lo hi f s = s.
Proof. intros. unfold for_. replace (Z.to_nat (hi - lo)) with O by lia. reflexivity. Qed.

Lemma u32_add_l a b : u32 (u32 a + b) = u32 (a + b).
Proof. unfold u32. now rewrite Zplus_mod_idemp_l. Qed.
Lemma u32_add_r a b : u32 (a + u32 b) = u32 (a + b).
Proof. unfold u32. now rewrite Zplus_mod_idemp_r. Qed.
Lemma u32_sub_l a b : u32 (u32 a - b) = u32 (a - b).
Proof. unfold u32. now rewrite Zminus_mod_idemp_l. Qed.
Lemma u32_sub_r a b : u32 (a - u32 b) = u32 (a - b).
Proof. unfold u32. now rewrite Zminus_mod_idemp_r. Qed.

Lemma u32_square a b c d : u32 (u32 (u32 (u32 a + u32 b) - u32 c) - u32 d) = u32 (a + b - c - d).
Proof.
  rewrite u32_sub_r, u32_sub_l. replace (u32 (u32 a + u32 b) - u32 c - d) with (u32 (u32 a + u32 b) - (u32 c + d)) by lia.
  rewrite u32_sub_l. rewrite <- u32_sub_r, u32_add_l, u32_sub_r. replace (u32 a + u32 b - (c + d)) with (u32 a + (u32 b - (c + d))) by lia.
  rewrite u32_add_l. replace (a + (u32 b - (c + d))) with (u32 b + (a - (c + d))) by lia. rewrite u32_add_l. f_equal. lia.
Qed.

Definition row_step (src : Z -> Z) (stride row : Z) (c : Z) (st : (Z -> Z) * (Z -> Z) * Z * Z) : (Z -> Z) * (Z -> Z) * Z * Z :=
    let '(ii, sq, sum, sq_sum) := st in
    let current := src c in
    let sum := u32 (sum + current) in
    let above (m : Z -> Z) := if row =? 0 then 0 else m ((row - 1) * stride + c) in
    let ii := set1 ii (row * stride + c) (u32 (sum + above ii)) in
    let sq_sum := u32 (sq_sum + u32 (current * current)) in
    let sq := set1 sq (row * stride + c) (u32 (sq_sum + above sq)) in
    (ii, sq, sum, sq_sum).
(* what one of the two images looks like after m columns of the row *)
Definition after_row (f : Z -> Z) (stride row : Z) (m : nat) (old new : Z -> Z) : Prop :=
  (forall c, 0 <= c < Z.of_nat m -> new (row * stride + c) =
     u32 (sum f 0 (S (Z.to_nat c)) + (if row =? 0 then 0 else old ((row - 1) * stride + c)))) /\
  (forall a, ~ (row * stride <= a < row * stride + Z.of_nat m) -> new a = old a).
Lemma after_step f stride row m old new v : Z.of_nat m < stride ->
  after_row f stride row m old new ->
  v = u32 (sum f 0 (S m) + (if row =? 0 then 0 else new ((row - 1) * stride + Z.of_nat m))) ->
  after_row f stride row (S m) old (set1 new (row * stride + Z.of_nat m) v).
Proof.
  intros Hm [H1 H2] E. split.
  - intros c Hc. unfold set1. destruct (Z.eqb_spec (row * stride + c) (row * stride + Z.of_nat m)) as [D|D].
    + assert (c = Z.of_nat m) by lia. subst c. rewrite Nat2Z.id. rewrite E. f_equal. f_equal.
      destruct (row =? 0); [reflexivity|]. apply H2. lia.
    + apply H1. lia.
  - intros a Ha. unfold set1. destruct (Z.eqb_spec a (row * stride + Z.of_nat m)) as [D|D]; [lia|]. apply H2. lia.
Qed.
Lemma row_loop src stride row m ii sq : Z.of_nat m <= stride ->
  let '(ii', sq', s, q) := loop (row_step src stride row) 0 m (ii, sq, 0, 0) in
  s = u32 (sum src 0 m) /\ q = u32 (sum (fun c => src c * src c) 0 m) /\
  after_row src stride row m ii ii' /\ after_row (fun c => src c * src c) stride row m sq sq'.
Proof.
  induction m as [|m IH]; intros Hm.
  - cbn [loop Sgr_spec.sum]. repeat split; intros; lia.
  - cbn [loop]. specialize (IH ltac:(lia)). destruct (loop (row_step src stride row) 0 m (ii, sq, 0, 0)) as [[[ii' sq'] s] q].
    destruct IH as (Es & Eq & A1 & A2). unfold row_step. rewrite Z.add_0_l.
    assert (Es' : u32 (s + src (Z.of_nat m)) = u32 (sum src 0 (S m))) by (rewrite Es, u32_add_l; reflexivity).
    assert (Eq' : u32 (q + u32 (src (Z.of_nat m) * src (Z.of_nat m))) = u32 (sum (fun c => src c * src c) 0 (S m)))
      by (rewrite Eq, u32_add_r, u32_add_l; reflexivity).
    rewrite Es', Eq'. split; [reflexivity|]. split; [reflexivity|]. split.
    + apply after_step; [lia|exact A1|]. rewrite u32_add_l. reflexivity.
    + apply after_step; [lia|exact A2|]. rewrite u32_add_l. reflexivity.
Qed.
Lemma integral_row_spec src stride row n m : 0 <= n <= stride ->
  after_row src stride row (Z.to_nat n) (fst m) (fst (integral_row src stride row n m)) /\
  after_row (fun c => src c * src c) stride row (Z.to_nat n) (snd m) (snd (integral_row src stride row n m)).
Proof.
  intros H. unfold integral_row. cbv zeta. unfold for_. rewrite Z.sub_0_r.
  pose proof (row_loop src stride row (Z.to_nat n) (fst m) (snd m) ltac:(lia)) as R.
  unfold row_step in R. destruct (loop _ 0 (Z.to_nat n) (fst m, snd m, 0, 0)) as [[[ii' sq'] s] q].
  cbn [fst snd]. tauto.
Qed.

(** ** The whole images *)
(* the sum over rows below k and columns below c *)
Definition area (f : Z -> Z -> Z) (k c : nat) : Z := sum (fun i => sum (f i) 0 c) 0 k.
Definition image (f : Z -> Z -> Z) (stride n rows : Z) (m : Z -> Z) : Prop :=
  forall k c, 0 <= k < rows -> 0 <= c < n -> m (k * stride + c) = u32 (area f (S (Z.to_nat k)) (S (Z.to_nat c))).
Lemma rows_loop f stride n g (m0 : (Z -> Z) * (Z -> Z)) rows : 0 <= n <= stride ->
  (forall k, 0 <= k < Z.of_nat rows -> g k = n) ->
  let m := loop (fun k => integral_row (f k) stride k (g k)) 0 rows m0 in
  image f stride n (Z.of_nat rows) (fst m) /\ image (fun i j => f i j * f i j) stride n (Z.of_nat rows) (snd m).
Proof.
  intros Hn. induction rows as [|rows IH]; intros Hg.
  - cbn. split; intros k c Hk; lia.
  - cbn [loop]. cbv zeta in *. specialize (IH ltac:(intros; apply Hg; lia)).
    set (m := loop _ 0 rows m0) in *. clearbody m. destruct IH as [I1 I2].
    rewrite Z.add_0_l, Hg by lia.
    destruct (integral_row_spec (f (Z.of_nat rows)) stride (Z.of_nat rows) n m Hn) as [A1 A2].
    set (m' := integral_row _ _ _ _ _) in *. clearbody m'.
    assert (G : forall F old new, image F stride n (Z.of_nat rows) old ->
      after_row (F (Z.of_nat rows)) stride (Z.of_nat rows) (Z.to_nat n) old new -> image F stride n (Z.of_nat (S rows)) new).
    { intros F old new I [B1 B2] k c Hk Hc. destruct (Z.eq_dec k (Z.of_nat rows)) as [->|Nk].
      - rewrite B1 by lia. unfold area. rewrite (sum_S _ 0 (Z.to_nat (Z.of_nat rows))). rewrite Nat2Z.id, Z.add_0_l.
        destruct (Z.eqb_spec (Z.of_nat rows) 0) as [Z0|Z0].
        + assert (rows = O) by lia. subst rows. cbn [Sgr_spec.sum]. f_equal. lia.
        + rewrite I by lia. rewrite u32_add_r. unfold area. replace (S (Z.to_nat (Z.of_nat rows - 1))) with rows by lia. f_equal. lia.
      - rewrite B2 by nia. apply I; lia. }
    split; [eapply G; eauto|]. eapply (G (fun i j => f i j * f i j)); eauto.
Qed.

Lemma area_window f k c d : 
  area f (k + d) (c + d) - area f (k + d) c - area f k (c + d) + area f k c =
  sum (fun i => sum (f i) (Z.of_nat c) d) (Z.of_nat k) d.
Proof.
  unfold area. rewrite !(sum_app _ 0 k d). rewrite !Z.add_0_l.
  assert (E : forall lo n, sum (fun i => sum (f i) 0 (c + d)) lo n = sum (fun i => sum (f i) 0 c) lo n + sum (fun i => sum (f i) (Z.of_nat c) d) lo n).
  { intros lo n. rewrite sum_add. apply sum_ext. intros i _. rewrite sum_app, Z.add_0_l. reflexivity. }
  rewrite !E. lia.
Qed.

(** get_integral_square is the sum over the square below and right of its corner *)
Lemma square_spec f stride n rows m off oy ox x y d :
  image f stride n rows m -> off = oy * stride + ox -> 0 <= oy -> 0 <= ox -> 0 <= x -> 0 <= y -> 0 <= d ->
  y + oy + d < rows -> x + ox + d < n ->
  (forall i j, 0 <= i < rows -> 0 <= j < n -> 0 <= f i j <= 16777215) -> d <= 5 ->
  get_integral_square m off stride x y d =
  sum (fun i => sum (f i) (x + ox + 1) (Z.to_nat d)) (y + oy + 1) (Z.to_nat d).
Proof.
  intros I Eo Hoy Hox Hx Hy Hd Hr Hc Hf H5. unfold get_integral_square. cbv zeta. subst off.
  replace (oy * stride + ox + (y * stride + x)) with ((y + oy) * stride + (x + ox)) by lia.
  replace (oy * stride + ox + (y * stride + x + d)) with ((y + oy) * stride + (x + ox + d)) by lia.
  replace (oy * stride + ox + ((y + d) * stride + x)) with ((y + oy + d) * stride + (x + ox)) by lia.
  replace (oy * stride + ox + ((y + d) * stride + x + d)) with ((y + oy + d) * stride + (x + ox + d)) by lia.
  rewrite !I by lia. rewrite u32_square.
  pose proof (area_window f (S (Z.to_nat (y + oy))) (S (Z.to_nat (x + ox))) (Z.to_nat d)) as W.
  replace (S (Z.to_nat (y + oy)) + Z.to_nat d)%nat with (S (Z.to_nat (y + oy + d))) in W by lia.
  replace (S (Z.to_nat (x + ox)) + Z.to_nat d)%nat with (S (Z.to_nat (x + ox + d))) in W by lia.
  replace (Z.of_nat (S (Z.to_nat (x + ox)))) with (x + ox + 1) in W by lia.
  replace (Z.of_nat (S (Z.to_nat (y + oy)))) with (y + oy + 1) in W by lia.
  rewrite <- W.
  assert (B : 0 <= sum (fun i => sum (f i) (x + ox + 1) (Z.to_nat d)) (y + oy + 1) (Z.to_nat d) <= Z.of_nat (Z.to_nat d) * (5 * 16777215)).
  { apply sum_bound. intros i Hi. assert (Q : 0 <= sum (f i) (x + ox + 1) (Z.to_nat d) <= Z.of_nat (Z.to_nat d) * 16777215).
    { apply sum_bound. intros j Hj. apply Hf; lia. } lia. }
  rewrite <- W in B. match goal with |- u32 ?e = ?v => replace e with v by lia end.
  apply u32_id. change (2 ^ 32) with 4294967296. lia.
Qed.
