(** The arithmetic of the self guided filter: no overflow, and equality with the specification. *)
From Verif Require Import Base Sgr_model Sgr_box.
From Verif Require Sgr_spec.
Local Open Scope Z_scope.

(** ** A bound on n times the sum of squares minus the square of the sum *)
Fixpoint lsum (l : list Z) : Z := match l with [] => 0 | x :: l => x + lsum l end.
Lemma lsum_app a b : lsum (a ++ b) = lsum a + lsum b.
Proof. induction a; cbn [lsum app]; lia. Qed.
Lemma extremes n M K B l : 1 <= n -> 0 <= M -> (forall u, 0 <= u <= n -> u * (n - u) * (M * M) + K * (u * M) <= B) ->
  Forall (fun x => 0 <= x <= M) l -> forall t, 0 <= t -> t + zlen l <= n ->
  n * (t * (M * M) + lsum (map (fun x => x * x) l)) - (t * M + lsum l) * (t * M + lsum l) + K * (t * M + lsum l) <= B.
Proof.
  intros Hn HM HB Hl. induction Hl as [|x l Hx Hl IH]; intros t Ht Hlen.
  - cbn [map lsum]. rewrite zlen_nil in Hlen. specialize (HB t ltac:(lia)). nia.
  - rewrite zlen_cons in Hlen. pose proof (zlen_nonneg _ l). cbn [map lsum].
    pose proof (IH t Ht ltac:(lia)) as B0. pose proof (IH (t + 1) ltac:(lia) ltac:(lia)) as B1. clear IH.
    set (Q := lsum (map (fun x => x * x) l)) in *. set (S := lsum l) in *. clearbody Q S.
    set (q := t * (M * M) + Q). set (s := t * M + S).
    assert (E0 : n * q - s * s + K * s <= B) by (unfold q, s; lia).
    assert (E1 : n * (q + M * M) - (s + M) * (s + M) + K * (s + M) <= B).
    { unfold q, s. replace (t * (M * M) + Q + M * M) with ((t + 1) * (M * M) + Q) by ring.
      replace (t * M + S + M) with ((t + 1) * M + S) by ring. exact B1. }
    replace (t * (M * M) + (x * x + Q)) with (q + x * x) by (unfold q; ring).
    replace (t * M + (x + S)) with (s + x) by (unfold s; ring). clearbody q s. clear B0 B1.
    (* M * phi(x) <= (M - x) * phi(0) + x * phi(M), as the quadratic is convex *)
    destruct (Z.eq_dec M 0) as [->|NM]; [assert (x = 0) by lia; subst x; lia|].
    assert (C : M * (n * (q + x * x) - (s + x) * (s + x) + K * (s + x)) <=
      (M - x) * (n * q - s * s + K * s) + x * (n * (q + M * M) - (s + M) * (s + M) + K * (s + M))).
    { assert (D : 0 <= (n - 1) * (x * (M - x) * M)) by (apply Z.mul_nonneg_nonneg; [lia|]; apply Z.mul_nonneg_nonneg; [apply Z.mul_nonneg_nonneg|]; lia).
      lia. }
    assert (F1 : (M - x) * (n * q - s * s + K * s) <= (M - x) * B) by (apply Z.mul_le_mono_nonneg_l; lia).
    assert (F2 : x * (n * (q + M * M) - (s + M) * (s + M) + K * (s + M)) <= x * B) by (apply Z.mul_le_mono_nonneg_l; lia).
    apply (Z.mul_le_mono_pos_l _ _ M); lia.
Qed.
Lemma lsum_bound M l : Forall (fun x => 0 <= x <= M) l -> 0 <= lsum l <= zlen l * M /\ 0 <= lsum (map (fun x => x * x) l) <= zlen l * (M * M).
Proof. induction 1 as [|x l Hx Hl IH]; cbn [lsum map]; rewrite ?zlen_nil, ?zlen_cons; [lia|]. nia. Qed.

(** the windows as lists *)
Definition wlist (f : Z -> Z -> Z) (ly lx : Z) (d : nat) : list Z :=
  flat_map (fun i => map (fun j => f (ly + Z.of_nat i) (lx + Z.of_nat j)) (seq 0 d)) (seq 0 d).
Lemma sum_lsum f lo n : sum f lo n = lsum (map (fun i => f (lo + Z.of_nat i)) (seq 0 n)).
Proof. induction n as [|n IH]; [reflexivity|]. rewrite seq_S, map_app, lsum_app. cbn [Sgr_spec.sum map lsum Nat.add]. rewrite IH. lia. Qed.
Lemma wlist_sum (g : Z -> Z) f ly lx d :
  sum (fun i => sum (fun j => g (f i j)) lx d) ly d = lsum (map g (wlist f ly lx d)).
Proof.
  rewrite sum_lsum. unfold wlist. generalize (seq 0 d) at 1 3. intros l. induction l as [|a l IH]; [reflexivity|].
  cbn [flat_map map lsum]. rewrite IH, map_app, lsum_app, sum_lsum, map_map. reflexivity.
Qed.
Lemma flat_len {A B} (F : A -> list B) l n : (forall a, zlen (F a) = n) -> zlen (flat_map F l) = zlen l * n.
Proof. intros H. induction l as [|a l IH]; cbn [flat_map]; [reflexivity|]. rewrite zlen_app, IH, H, zlen_cons. lia. Qed.
Lemma wlist_len f ly lx d : zlen (wlist f ly lx d) = Z.of_nat d * Z.of_nat d.
Proof.
  unfold wlist. rewrite (flat_len _ _ (Z.of_nat d)).
  - unfold zlen. rewrite seq_length. reflexivity.
  - intros a. rewrite zlen_map. unfold zlen. rewrite seq_length. reflexivity.
Qed.
Lemma wlist_in f ly lx d M : (forall i j, ly <= i < ly + Z.of_nat d -> lx <= j < lx + Z.of_nat d -> 0 <= f i j <= M) ->
  Forall (fun x => 0 <= x <= M) (wlist f ly lx d).
Proof.
  intros H. apply Forall_forall. intros x Hx. unfold wlist in Hx. apply in_flat_map in Hx. destruct Hx as (i & Hi & Hx).
  apply in_map_iff in Hx. destruct Hx as (j & <- & Hj). apply in_seq in Hi, Hj. apply H; lia.
Qed.

(** ** sgrproj_sum_finish *)
Definition pass_ok (rad s : Z) : Prop := (rad = 1 /\ 0 <= s <= 3236) \/ (rad = 2 /\ 0 <= s <= 140).
Definition bd_ok (bd : Z) : Prop := bd = 8 \/ bd = 10 \/ bd = 12.
Definition nn (rad : Z) : Z := (2 * rad + 1) * (2 * rad + 1).
(* the intermediate values, exactly *)
Definition p_of (bd n ssq su : Z) : Z :=
  let a := Sgr_spec.Round2 ssq (2 * (bd - 8)) in let d := Sgr_spec.Round2 su (bd - 8) in Z.max 0 (a * n - d * d).
Definition a_of (bd n s ssq su : Z) : Z :=
  let z := Sgr_spec.Round2 (p_of bd n ssq su * s) 20 in
  if 255 <=? z then 256 else if z =? 0 then 1 else (z * 2 ^ 8 + z / 2) / (z + 1).
Definition b_of (bd n s one ssq su : Z) : Z := Sgr_spec.Round2 ((2 ^ 8 - a_of bd n s ssq su) * su * one) 12.
Definition one_of (rad : Z) : Z := if rad =? 1 then 455 else 164.

Lemma p_bound k n ssq su C : 0 <= k -> 0 <= n -> 0 <= ssq -> 0 <= su ->
  n * ssq - su * su + 2 ^ k * su <= 2 ^ (2 * k) * C ->
  n * Sgr_spec.Round2 ssq (2 * k) - Sgr_spec.Round2 su k * Sgr_spec.Round2 su k <= C + (n + 1) / 2.
Proof.
  intros Hk Hn Hq Hs H.
  destruct (round2_bounds ssq (2 * k) ltac:(lia) Hq) as (P1 & P2 & _).
  destruct (round2_bounds su k Hk Hs) as (Q1 & _ & Q2).
  set (R1 := Sgr_spec.Round2 ssq (2 * k)) in *. set (R2 := Sgr_spec.Round2 su k) in *. clearbody R1 R2.
  assert (E : 2 ^ (2 * k) = 2 ^ k * 2 ^ k) by (rewrite <- Z.pow_add_r by lia; f_equal; lia). rewrite E in *. clear E.
  assert (P : 1 <= 2 ^ k) by (pose proof (Z.pow_pos_nonneg 2 k); lia). set (w := 2 ^ k) in *. clearbody w.
  assert (Hww : 2 * (w * w / 2) <= w * w) by dlia.
  assert (Hw2 : 2 * (w / 2) <= w) by dlia.
  assert (Sq : su * su - w * su <= (w * R2) * (w * R2)).
  { destruct (Z.le_gt_cases su w) as [L|L]; [nia|]. assert (2 * su - w <= 2 * (w * R2)) by dlia. nia. }
  assert (T : w * w * (n * R1 - R2 * R2) <= w * w * C + n * (w * w / 2)) by nia.
  assert (2 * (w * w * (n * R1 - R2 * R2)) <= w * w * (2 * C + n)) by nia.
  assert (2 * (n * R1 - R2 * R2) <= 2 * C + n) by (apply (Z.mul_le_mono_pos_l _ _ (w * w)); nia).
  dlia.
Qed.

Lemma p_range bd rad l : bd_ok bd -> rad = 1 \/ rad = 2 -> Forall (fun x => 0 <= x <= 2 ^ bd - 1) l -> zlen l = nn rad ->
  0 <= p_of bd (nn rad) (lsum (map (fun x => x * x) l)) (lsum l) <= (if rad =? 1 then 1312400 else 10240000).
Proof.
  intros Hbd Hr Hl Hlen. destruct (lsum_bound _ _ Hl) as [S1 S2]. unfold p_of. cbv zeta.
  split; [lia|]. apply Z.max_lub; [destruct (rad =? 1); lia|]. rewrite (Z.mul_comm _ (nn rad)).
  assert (X : forall B, (forall u, 0 <= u <= nn rad -> u * (nn rad - u) * ((2 ^ bd - 1) * (2 ^ bd - 1)) + 2 ^ (bd - 8) * (u * (2 ^ bd - 1)) <= B) ->
    nn rad * lsum (map (fun x => x * x) l) - lsum l * lsum l + 2 ^ (bd - 8) * lsum l <= B).
  { intros B HB. assert (1 <= nn rad) by (destruct Hr as [-> | ->]; vm_compute; discriminate).
    assert (0 <= 2 ^ bd - 1) by (destruct Hbd as [->|[->| ->]]; vm_compute; discriminate).
    pose proof (extremes (nn rad) (2 ^ bd - 1) (2 ^ (bd - 8)) B l H H0 HB Hl 0 ltac:(lia) ltac:(lia)) as R.
    rewrite !Z.mul_0_l, !Z.add_0_l in R. exact R. }
  assert (Y : forall C, (forall u, 0 <= u <= nn rad -> u * (nn rad - u) * ((2 ^ bd - 1) * (2 ^ bd - 1)) + 2 ^ (bd - 8) * (u * (2 ^ bd - 1)) <= 2 ^ (2 * (bd - 8)) * C) ->
    nn rad * Sgr_spec.Round2 (lsum (map (fun x => x * x) l)) (2 * (bd - 8)) - Sgr_spec.Round2 (lsum l) (bd - 8) * Sgr_spec.Round2 (lsum l) (bd - 8) <= C + (nn rad + 1) / 2).
  { intros C HC. apply (p_bound (bd - 8) (nn rad)); try lia.
    - destruct Hbd as [->|[->| ->]]; lia.
    - destruct Hr as [-> | ->]; vm_compute; discriminate.
    - apply X. exact HC. }
  clear X. destruct Hr as [-> | ->].
  - change (nn 1) with 9 in *. change (1 =? 1) with true. cbv iota. specialize (Y 1312390). etransitivity; [apply Y|vm_compute; discriminate].
    intros u Hu. assert (u * (9 - u) <= 20) by (destruct (Z.le_gt_cases u 4); nia). assert (0 <= u * (9 - u)) by nia.
    set (v := u * (9 - u)) in *. clearbody v. clear - Hu H H0 Hbd.
    destruct Hbd as [->|[->| ->]]; [change (2 ^ 8 - 1) with 255; change (2 ^ (8 - 8)) with 1; change (2 ^ (2 * (8 - 8))) with 1|change (2 ^ 10 - 1) with 1023; change (2 ^ (10 - 8)) with 4; change (2 ^ (2 * (10 - 8))) with 16|change (2 ^ 12 - 1) with 4095; change (2 ^ (12 - 8)) with 16; change (2 ^ (2 * (12 - 8))) with 256]; lia.
  - change (nn 2) with 25 in *. change (2 =? 1) with false. cbv iota. specialize (Y 10239000). etransitivity; [apply Y|vm_compute; discriminate].
    intros u Hu. assert (u * (25 - u) <= 156) by (destruct (Z.le_gt_cases u 12); nia). assert (0 <= u * (25 - u)) by nia.
    set (v := u * (25 - u)) in *. clearbody v. clear - Hu H H0 Hbd.
    destruct Hbd as [->|[->| ->]]; [change (2 ^ 8 - 1) with 255; change (2 ^ (8 - 8)) with 1; change (2 ^ (2 * (8 - 8))) with 1|change (2 ^ 10 - 1) with 1023; change (2 ^ (10 - 8)) with 4; change (2 ^ (2 * (10 - 8))) with 16|change (2 ^ 12 - 1) with 4095; change (2 ^ (12 - 8)) with 16; change (2 ^ (2 * (12 - 8))) with 256]; lia.
Qed.

Lemma a_range bd n s ssq su : 0 <= s -> 0 <= p_of bd n ssq su -> 1 <= a_of bd n s ssq su <= 256.
Proof.
  intros Hs Hp. unfold a_of. cbv zeta. assert (0 <= p_of bd n ssq su * s) by nia.
  destruct (round2_bounds (p_of bd n ssq su * s) 20 ltac:(lia) H) as [Hz _].
  set (z := Sgr_spec.Round2 _ 20) in *. clearbody z. destruct (255 <=? z) eqn:E1; [lia|]. destruct (z =? 0) eqn:E2; [lia|].
  change (2 ^ 8) with 256. split; [apply Z.div_le_lower_bound; dlia|apply Z.div_le_upper_bound; dlia].
Qed.
Lemma b_range bd rad s l : bd_ok bd -> pass_ok rad s -> Forall (fun x => 0 <= x <= 2 ^ bd - 1) l -> zlen l = nn rad ->
  let su := lsum l in let ssq := lsum (map (fun x => x * x) l) in
  0 <= (2 ^ 8 - a_of bd (nn rad) s ssq su) * su * one_of rad <= 4281500000 /\
  0 <= b_of bd (nn rad) s (one_of rad) ssq su <= 1045300.
Proof.
  intros Hbd Hr Hl Hlen. cbv zeta. destruct (lsum_bound _ _ Hl) as [S1 S2]. rewrite Hlen in *.
  assert (Hrad : rad = 1 \/ rad = 2) by (destruct Hr; lia). assert (0 <= s) by (destruct Hr; lia).
  pose proof (a_range bd (nn rad) s _ _ H (proj1 (p_range bd rad l Hbd Hrad Hl Hlen))) as A.
  set (a := a_of _ _ _ _ _) in *.
  assert (E : 0 <= (2 ^ 8 - a) * lsum l * one_of rad <= 4281500000).
  { change (2 ^ 8) with 256. set (S := lsum l) in *. clearbody S a.
    assert (T : 0 <= (256 - a) * S <= 255 * (nn rad * (2 ^ bd - 1))).
    { destruct S1 as [S1 S3]. set (N := nn rad * (2 ^ bd - 1)) in *. clearbody N. clear - S1 S3 A. nia. }
    set (v := (256 - a) * S) in *. clearbody v. clear - T Hrad Hbd.
    destruct Hrad as [-> | ->]; [change (nn 1) with 9 in *; change (one_of 1) with 455|change (nn 2) with 25 in *; change (one_of 2) with 164];
    (destruct Hbd as [->|[->| ->]]; [change (2 ^ 8 - 1) with 255 in *|change (2 ^ 10 - 1) with 1023 in *|change (2 ^ 12 - 1) with 4095 in *]); lia. }
  split; [exact E|]. unfold b_of. fold a. destruct (round2_bounds _ 12 ltac:(lia) (proj1 E)) as (B1 & B2 & _).
  change (2 ^ 12) with 4096 in *. change (4096 / 2) with 2048 in *. lia.
Qed.

Lemma scaled_le bd n q r : bd_ok bd -> 9 <= n <= 25 -> 2 ^ (2 * (bd - 8)) * r <= q + 2 ^ (2 * (bd - 8)) / 2 ->
  q <= n * ((2 ^ bd - 1) * (2 ^ bd - 1)) -> r <= 1638401.
Proof.
  intros [->|[->| ->]] N H Q; [change (2 ^ 8 - 1) with 255 in *; change (2 ^ (2 * (8 - 8))) with 1 in *; change (1 / 2) with 0 in *|
   change (2 ^ 10 - 1) with 1023 in *; change (2 ^ (2 * (10 - 8))) with 16 in *; change (16 / 2) with 8 in *|
   change (2 ^ 12 - 1) with 4095 in *; change (2 ^ (2 * (12 - 8))) with 256 in *; change (256 / 2) with 128 in *]; lia.
Qed.
Lemma scaled_le1 bd n q r : bd_ok bd -> 9 <= n <= 25 -> 2 ^ (bd - 8) * r <= q + 2 ^ (bd - 8) / 2 -> q <= n * (2 ^ bd - 1) -> r <= 6401.
Proof.
  intros [->|[->| ->]] N H Q; [change (2 ^ 8 - 1) with 255 in *; change (2 ^ (8 - 8)) with 1 in *; change (1 / 2) with 0 in *|
   change (2 ^ 10 - 1) with 1023 in *; change (2 ^ (10 - 8)) with 4 in *; change (4 / 2) with 2 in *|
   change (2 ^ 12 - 1) with 4095 in *; change (2 ^ (12 - 8)) with 16 in *; change (16 / 2) with 8 in *]; lia.
Qed.

Lemma finish_spec bd rad s l : bd_ok bd -> pass_ok rad s -> Forall (fun x => 0 <= x <= 2 ^ bd - 1) l -> zlen l = nn rad ->
  let su := lsum l in let ssq := lsum (map (fun x => x * x) l) in
  sgrproj_sum_finish bd ssq su (nn rad) (one_of rad) s =
  (a_of bd (nn rad) s ssq su, b_of bd (nn rad) s (one_of rad) ssq su).
Proof.
  intros Hbd Hr Hl Hlen. cbv zeta.
  destruct (b_range bd rad s l Hbd Hr Hl Hlen) as [BR _]. destruct (lsum_bound _ _ Hl) as [S1 S2]. rewrite Hlen in *.
  assert (Hrad : rad = 1 \/ rad = 2) by (destruct Hr; lia). assert (Hs0 : 0 <= s) by (destruct Hr; lia).
  pose proof (p_range bd rad l Hbd Hrad Hl Hlen) as PR.
  pose proof (a_range bd (nn rad) s _ _ Hs0 (proj1 PR)) as AR.
  set (su := lsum l) in *. set (ssq := lsum (map _ l)) in *. clearbody su ssq. clear Hl Hlen.
  assert (Hk : 0 <= bd - 8) by (destruct Hbd as [->|[->| ->]]; lia).
  assert (N : 9 <= nn rad <= 25) by (destruct Hrad as [-> | ->]; cbn; lia).
  assert (M : 255 <= 2 ^ bd - 1 <= 4095) by (destruct Hbd as [->|[->| ->]]; cbn; lia).
  assert (Bs : su <= 102375) by nia. assert (Bq : ssq <= 419225625) by nia.
  assert (Hp1 : 2 ^ (bd - 8) / 2 <= 8 /\ 2 ^ (2 * (bd - 8)) / 2 <= 128 /\ 0 <= 2 ^ (bd - 8) / 2 /\ 0 <= 2 ^ (2 * (bd - 8)) / 2 /\ 1 <= 2 ^ (bd - 8) /\ 1 <= 2 ^ (2 * (bd - 8))) by (destruct Hbd as [->|[->| ->]]; cbn; lia).
  unfold sgrproj_sum_finish. cbv zeta.
  rewrite (u32_id (ssq + _)) by (rewrite half_pow by lia; change (2 ^ 32) with 4294967296; lia).
  rewrite (u32_id (su + _)) by (rewrite half_pow by lia; change (2 ^ 32) with 4294967296; lia).
  rewrite (round2_shift ssq) by lia. rewrite (round2_shift su) by lia.
  destruct (round2_bounds ssq (2 * (bd - 8)) ltac:(lia) ltac:(lia)) as (P1 & P2 & _).
  destruct (round2_bounds su (bd - 8) Hk ltac:(lia)) as (Q1 & Q2 & _).
  unfold p_of in PR. unfold b_of, a_of, p_of in *. cbv zeta in *.
  set (R1 := Sgr_spec.Round2 ssq _) in *. set (R2 := Sgr_spec.Round2 su _) in *.
  assert (X1 : R1 * nn rad <= 40960100).
  { assert (R1 <= 1638401) by (clear - P2 S2 Hbd N; apply (scaled_le bd _ _ _ Hbd N P2); apply S2).
    clear - H P1 N. nia. }
  assert (X2 : R2 * R2 <= 41000000).
  { assert (R2 <= 6401) by (clear - Q2 S1 Hbd N; apply (scaled_le1 bd _ _ _ Hbd N Q2); apply S1). clear - H Q1. nia. }
  rewrite (u32_id (R1 * nn rad)) by (change (2 ^ 32) with 4294967296; clear - X1 P1 N; nia).
  rewrite (u32_id (R2 * R2)) by (change (2 ^ 32) with 4294967296; clear - X2 Q1; nia).
  set (p := Z.max 0 (R1 * nn rad - R2 * R2)) in *. clearbody p R1 R2.
  assert (X3 : 0 <= p * s <= 4294000000).
  { destruct Hr as [[-> Hs]|[-> Hs]]; change (1 =? 1) with true in *; change (2 =? 1) with false in *; cbv iota in PR; clear - PR Hs; nia. }
  rewrite (u32_id (p * s)) by (change (2 ^ 32) with 4294967296; lia).
  rewrite (u32_id (p * s + _)) by (change (2 ^ 32) with 4294967296; change (Z.shiftr (Z.shiftl 1 SGRPROJ_MTABLE_BITS) 1) with 524288; lia).
  rewrite round2_shift by (vm_compute; discriminate). change SGRPROJ_MTABLE_BITS with 20. change SGRPROJ_SGR_BITS with 8. change SGRPROJ_RECIP_BITS with 12.
  destruct (round2_bounds (p * s) 20 ltac:(lia) ltac:(lia)) as (Z1 & _).
  set (z := Sgr_spec.Round2 (p * s) 20) in *. clearbody z.
  assert (EA : (if 255 <=? z then 256 else if z =? 0 then 1 else u32 (Z.shiftl z 8 + z / 2) / (z + 1)) =
    (if 255 <=? z then 256 else if z =? 0 then 1 else (z * 2 ^ 8 + z / 2) / (z + 1))).
  { destruct (255 <=? z) eqn:E1; [reflexivity|]. destruct (z =? 0); [reflexivity|].
    rewrite Z.shiftl_mul_pow2 by lia. rewrite u32_id; [reflexivity|]. change (2 ^ 8) with 256. change (2 ^ 32) with 4294967296. dlia. }
  rewrite EA. set (a := if 255 <=? z then 256 else _) in *. clearbody a.
  change (Z.shiftl 1 8) with 256. change (2 ^ 8) with 256 in *.
  assert (O : 164 <= one_of rad) by (destruct Hrad as [-> | ->]; cbn; lia).
  assert (X4 : 0 <= (256 - a) * su) by nia.
  assert (X5 : (256 - a) * su <= 4281500000) by nia.
  rewrite (u32_id (256 - a)) by (change (2 ^ 32) with 4294967296; lia).
  rewrite (u32_id ((256 - a) * su)) by (change (2 ^ 32) with 4294967296; lia).
  rewrite (u32_id ((256 - a) * su * one_of rad)) by (change (2 ^ 32) with 4294967296; lia).
  rewrite (u32_id (_ + _)) by (change (2 ^ 32) with 4294967296; change (Z.shiftr (Z.shiftl 1 12) 1) with 2048; lia).
  rewrite round2_shift by lia. reflexivity.
Qed.

(** ** The kernels *)
Definition ab_ok (f g : Z -> Z) (lo hi : Z) : Prop := forall x, lo <= x < hi -> 1 <= f x <= 256 /\ 0 <= g x <= 1045300.
Lemma row3_id (f : Z -> Z -> Z) x C : C <= 1045300 -> (forall k j, 0 <= k <= 2 -> 0 <= j <= 2 -> 0 <= f k (x + j) <= C) ->
  row3 f x = 3 * (f 0 x + f 2 x + f 0 (x + 2) + f 2 (x + 2)) + 4 * (f 1 x + f 0 (x + 1) + f 1 (x + 1) + f 2 (x + 1) + f 1 (x + 2)) /\
  0 <= row3 f x <= 32 * C.
Proof.
  intros HC H. unfold row3.
  pose proof (H 0 0 ltac:(lia) ltac:(lia)). pose proof (H 1 0 ltac:(lia) ltac:(lia)). pose proof (H 2 0 ltac:(lia) ltac:(lia)).
  pose proof (H 0 1 ltac:(lia) ltac:(lia)). pose proof (H 1 1 ltac:(lia) ltac:(lia)). pose proof (H 2 1 ltac:(lia) ltac:(lia)).
  pose proof (H 0 2 ltac:(lia) ltac:(lia)). pose proof (H 1 2 ltac:(lia) ltac:(lia)). pose proof (H 2 2 ltac:(lia) ltac:(lia)).
  rewrite Z.add_0_r in *. rewrite u32_id by (change (2 ^ 32) with 4294967296; lia). lia.
Qed.
Lemma row2_id (f : Z -> Z) x C : C <= 1045300 -> (forall j, 0 <= j <= 2 -> 0 <= f (x + j) <= C) ->
  row2 f x = 5 * (f x + f (x + 2)) + 6 * f (x + 1) /\ 0 <= row2 f x <= 16 * C.
Proof.
  intros HC H. unfold row2. pose proof (H 0 ltac:(lia)). pose proof (H 1 ltac:(lia)). pose proof (H 2 ltac:(lia)).
  rewrite Z.add_0_r in *. rewrite u32_id by (change (2 ^ 32) with 4294967296; lia). lia.
Qed.
Lemma f_r1_spec (af bf : Z -> Z -> Z) line x :
  (forall k j, 0 <= k <= 2 -> 0 <= j <= 2 -> 0 <= af k (x + j) <= 256) ->
  (forall k j, 0 <= k <= 2 -> 0 <= j <= 2 -> 0 <= bf k (x + j) <= 1045300) -> 0 <= line x <= 4095 ->
  let tot (f : Z -> Z -> Z) := 3 * (f 0 x + f 2 x + f 0 (x + 2) + f 2 (x + 2)) + 4 * (f 1 x + f 0 (x + 1) + f 1 (x + 1) + f 2 (x + 1) + f 1 (x + 2)) in
  f_r1 af bf line x = Sgr_spec.Round2 (tot af * line x + tot bf) 9 /\ 0 <= f_r1 af bf line x <= 131071.
Proof.
  intros HA HB HL. cbv zeta. destruct (row3_id af x 256 ltac:(lia) HA) as [E1 R1]. destruct (row3_id bf x 1045300 ltac:(lia) HB) as [E2 R2].
  unfold f_r1. cbv zeta. change (5 + SGRPROJ_SGR_BITS - SGRPROJ_RST_BITS) with 9. rewrite <- E1, <- E2.
  set (a := row3 af x) in *. set (b := row3 bf x) in *. clearbody a b. clear E1 E2 HA HB.
  assert (X : 0 <= a * line x <= 33546240) by nia.
  rewrite (u32_id (a * line x)) by (change (2 ^ 32) with 4294967296; lia).
  rewrite (u32_id (a * line x + b)) by (change (2 ^ 32) with 4294967296; lia).
  rewrite (u32_id (_ + _)) by (change (2 ^ 32) with 4294967296; change (Z.shiftr (Z.shiftl 1 9) 1) with 256; lia).
  rewrite round2_shift by lia. split; [reflexivity|].
  destruct (round2_bounds (a * line x + b) 9 ltac:(lia) ltac:(lia)) as (Z1 & Z2 & _). change (2 ^ 9) with 512 in *. change (512 / 2) with 256 in *. lia.
Qed.
Lemma f_r2_fst (af bf : Z -> Z -> Z) line line1 x :
  (forall k j, 0 <= k <= 1 -> 0 <= j <= 2 -> 0 <= af k (x + j) <= 256) ->
  (forall k j, 0 <= k <= 1 -> 0 <= j <= 2 -> 0 <= bf k (x + j) <= 1045300) -> 0 <= line x <= 4095 ->
  let tot (f : Z -> Z) := 5 * (f x + f (x + 2)) + 6 * f (x + 1) in
  fst (f_r2 af bf line line1 x) = Sgr_spec.Round2 ((tot (af 0) + tot (af 1)) * line x + (tot (bf 0) + tot (bf 1))) 9.
Proof.
  intros HA HB HL. cbv zeta.
  destruct (row2_id (af 0) x 256 ltac:(lia) ltac:(intros; apply HA; lia)) as [E1 R1]. destruct (row2_id (af 1) x 256 ltac:(lia) ltac:(intros; apply HA; lia)) as [E2 R2].
  destruct (row2_id (bf 0) x 1045300 ltac:(lia) ltac:(intros; apply HB; lia)) as [E3 R3]. destruct (row2_id (bf 1) x 1045300 ltac:(lia) ltac:(intros; apply HB; lia)) as [E4 R4].
  unfold f_r2. cbv zeta. change (5 + SGRPROJ_SGR_BITS - SGRPROJ_RST_BITS) with 9. cbn [fst].
  rewrite <- E1, <- E2, <- E3, <- E4.
  set (a := row2 (af 0) x) in *. set (ao := row2 (af 1) x) in *. set (b := row2 (bf 0) x) in *. set (bo := row2 (bf 1) x) in *. clearbody a ao b bo. clear E1 E2 E3 E4 HA HB.
  assert (X : 0 <= (a + ao) * line x <= 33546240) by nia.
  rewrite (u32_id (a + ao)) by (change (2 ^ 32) with 4294967296; lia).
  rewrite (u32_id ((a + ao) * line x)) by (change (2 ^ 32) with 4294967296; lia).
  rewrite (u32_id ((a + ao) * line x + b)) by (change (2 ^ 32) with 4294967296; lia).
  rewrite (u32_id ((a + ao) * line x + b + bo)) by (change (2 ^ 32) with 4294967296; lia).
  rewrite (u32_id (_ + Z.shiftr _ _)) by (change (2 ^ 32) with 4294967296; change (Z.shiftr (Z.shiftl 1 9) 1) with 256; lia).
  rewrite round2_shift by lia. f_equal. lia.
Qed.
Lemma f_r2_snd (af bf : Z -> Z -> Z) line line1 x :
  (forall j, 0 <= j <= 2 -> 0 <= af 1 (x + j) <= 256) ->
  (forall j, 0 <= j <= 2 -> 0 <= bf 1 (x + j) <= 1045300) -> 0 <= line1 x <= 4095 ->
  let tot (f : Z -> Z) := 5 * (f x + f (x + 2)) + 6 * f (x + 1) in
  snd (f_r2 af bf line line1 x) = Sgr_spec.Round2 (tot (af 1) * line1 x + tot (bf 1)) 8.
Proof.
  intros HA HB HL. cbv zeta.
  destruct (row2_id (af 1) x 256 ltac:(lia) ltac:(intros; apply HA; lia)) as [E2 R2].
  destruct (row2_id (bf 1) x 1045300 ltac:(lia) ltac:(intros; apply HB; lia)) as [E4 R4].
  unfold f_r2. cbv zeta. change (4 + SGRPROJ_SGR_BITS - SGRPROJ_RST_BITS) with 8. cbn [snd].
  rewrite <- E2, <- E4. set (ao := row2 (af 1) x) in *. set (bo := row2 (bf 1) x) in *. clearbody ao bo. clear E2 E4 HA HB.
  assert (X : 0 <= ao * line1 x <= 16773120) by nia.
  rewrite (u32_id (ao * line1 x)) by (change (2 ^ 32) with 4294967296; lia).
  rewrite (u32_id (ao * line1 x + bo)) by (change (2 ^ 32) with 4294967296; lia).
  rewrite (u32_id (_ + Z.shiftr _ _)) by (change (2 ^ 32) with 4294967296; change (Z.shiftr (Z.shiftl 1 8) 1) with 128; lia).
  rewrite round2_shift by lia. reflexivity.
Qed.
Lemma apply_filter_spec bd w0 w1 w2 px f2 f1 : 0 <= bd ->
  apply_filter bd w0 w1 w2 px f2 f1 =
  Sgr_spec.Clip3 0 (2 ^ bd - 1) (Sgr_spec.Round2 (w1 * (px * 2 ^ 4) + w0 * f2 + w2 * f1) 11).
Proof.
  intros H. unfold apply_filter. cbv zeta. change (SGRPROJ_RST_BITS + SGRPROJ_PRJ_BITS) with 11.
  rewrite round2_shift by lia. rewrite !Z.shiftl_mul_pow2 by (assumption || (vm_compute; discriminate)).
  change SGRPROJ_RST_BITS with 4. rewrite Z.mul_1_l. unfold clamp, Sgr_spec.Clip3.
  replace (w0 * f2 + w1 * (px * 2 ^ 4) + w2 * f1) with (w1 * (px * 2 ^ 4) + w0 * f2 + w2 * f1) by lia. reflexivity.
Qed.
