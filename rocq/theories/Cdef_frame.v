(** The loops over the frame: the output of the encoder's filter is the specification's. *)
From Verif Require Import Base Cdef_model Cdef_dir Cdef_filter.
From Verif Require Cdef_spec.
Open Scope Z_scope.

(** ** Flags *)
Lemma have_bit e k : 0 <= k -> have e (2 ^ k) = Z.testbit e k.
Proof.
  intros Hk. unfold have. destruct (Z.testbit e k) eqn:E.
  - apply negb_true_iff, Z.eqb_neq. intros H.
    assert (B : Z.testbit (Z.land e (2 ^ k)) k = true).
    { rewrite Z.land_spec, E, Z.pow2_bits_true by lia. reflexivity. }
    rewrite H, Z.bits_0 in B. discriminate.
  - apply negb_false_iff, Z.eqb_eq. apply Z.bits_inj'. intros n Hn.
    rewrite Z.land_spec, Z.bits_0, Z.pow2_bits_eqb by lia.
    destruct (Z.eqb_spec k n); [subst; rewrite E; reflexivity|apply andb_false_r].
Qed.
Lemma have_L e : have e CDEF_HAVE_LEFT = Z.testbit e 0. Proof. exact (have_bit e 0 ltac:(lia)). Qed.
Lemma have_R e : have e CDEF_HAVE_RIGHT = Z.testbit e 1. Proof. exact (have_bit e 1 ltac:(lia)). Qed.
Lemma have_T e : have e CDEF_HAVE_TOP = Z.testbit e 2. Proof. exact (have_bit e 2 ltac:(lia)). Qed.
Lemma have_B e : have e CDEF_HAVE_BOTTOM = Z.testbit e 3. Proof. exact (have_bit e 3 ltac:(lia)). Qed.

(** ** Loops *)
Lemma ofold_snoc {A B} (f : A -> B -> option A) l b a :
  ofold f (l ++ [b]) a = bind (ofold f l a) (fun a' => f a' b).
Proof. unfold ofold. rewrite fold_left_app. reflexivity. Qed.

Lemma ofold_inv {A} (f : A -> Z -> option A) (P : Z -> A -> Prop) n : 0 <= n -> forall a, P 0 a ->
  (forall k a, 0 <= k < n -> P k a -> exists a', f a k = Some a' /\ P (k + 1) a') ->
  exists a', ofold f (zrange 0 n) a = Some a' /\ P n a'.
Proof.
  intros Hn a Ha Hs.
  assert (H : forall m, 0 <= m -> m <= n -> exists a', ofold f (zrange 0 m) a = Some a' /\ P m a').
  { intros m Hm. pattern m. apply natlike_ind; [| |assumption].
    - intros _. exists a. rewrite zrange_nil. split; [reflexivity|assumption].
    - intros k Hk IH Hle. destruct IH as [a1 [E1 P1]]; [lia|].
      destruct (Hs k a1) as [a2 [E2 P2]]; [lia|assumption|].
      exists a2. rewrite <- Z.add_1_r, zrange_snoc by lia. rewrite ofold_snoc, E1. split; assumption. }
  apply H; lia.
Qed.

(** ** Places, in samples and in blocks *)
Lemma cell_eq d x c : d = 0 \/ d = 1 ->
  ((x * 2 ^ d) / 8 =? c) = (c * Z.shiftr 8 d <=? x) && (x <? c * Z.shiftr 8 d + Z.shiftr 8 d).
Proof.
  intros [-> | ->]; [change (Z.shiftr 8 0) with 8; change (2 ^ 0) with 1|change (Z.shiftr 8 1) with 4; change (2 ^ 1) with 2];
    dlia.
Qed.
Lemma in_off d sb k : d = 0 \/ d = 1 ->
  Z.shiftr (0 + Z.shiftl sb (6 - 0)) d + k * Z.shiftr 8 d = (8 * sb + k) * Z.shiftr 8 d.
Proof.
  intros Hd. rewrite Z.shiftl_mul_pow2 by lia. change (2 ^ (6 - 0)) with 64.
  destruct Hd as [-> | ->]; rewrite ?Z.shiftr_0_r; [change (Z.shiftr 8 0) with 8|
    rewrite Z.shiftr_div_pow2 by lia; change (Z.shiftr 8 1) with 4; change (2 ^ 1) with 2]; dlia.
Qed.
Lemma out_off d sb k : d = 0 \/ d = 1 ->
  Z.shiftr 0 d + Z.shiftl (Z.shiftr (Z.shiftl sb 4 + 2 * k) d) 2 = (8 * sb + k) * Z.shiftr 8 d.
Proof.
  intros Hd. rewrite Z.shiftr_0_l, !Z.shiftl_mul_pow2 by lia. change (2 ^ 4) with 16. change (2 ^ 2) with 4.
  destruct Hd as [-> | ->]; rewrite ?Z.shiftr_0_r; [change (Z.shiftr 8 0) with 8|
    rewrite Z.shiftr_div_pow2 by lia; change (Z.shiftr 8 1) with 4; change (2 ^ 1) with 2]; dlia.
Qed.
Lemma plane_dim d n : d = 0 \/ d = 1 -> 8 * n / 2 ^ d = n * Z.shiftr 8 d.
Proof.
  intros [-> | ->]; [change (Z.shiftr 8 0) with 8; change (2 ^ 0) with 1|change (Z.shiftr 8 1) with 4; change (2 ^ 1) with 2]; dlia.
Qed.
Lemma size_cases d : d = 0 \/ d = 1 -> Z.shiftr 8 d = 4 \/ Z.shiftr 8 d = 8.
Proof. intros [-> | ->]; cbn; lia. Qed.

Lemma room n m s : s = 4 \/ s = 8 -> 0 <= n < m ->
  n * s + s <= m * s /\ (n + 1 < m -> n * s + s + 2 <= m * s) /\ (0 < n -> 2 <= n * s) /\ 0 <= n * s.
Proof. intros [-> | ->]; lia. Qed.
Lemma asserts_hold x y w h bw bh R C rows cols :
  x + bw <= w /\ (C + 1 < cols -> x + bw + 2 <= w) /\ (0 < C -> 2 <= x) /\ 0 <= x ->
  y + bh <= h /\ (R + 1 < rows -> y + bh + 2 <= h) /\ (0 < R -> 2 <= y) /\ 0 <= y ->
  (x + bw + (if C + 1 <? cols then 2 else 0) <=? w) && (0 <=? x - (if 0 <? C then 2 else 0)) &&
  (y + bh + (if R + 1 <? rows then 2 else 0) <=? h) && (0 <=? y - (if 0 <? R then 2 else 0)) = true.
Proof.
  intros Hx Hy.
  destruct (Z.ltb_spec 0 C), (Z.ltb_spec (C + 1) cols), (Z.ltb_spec 0 R), (Z.ltb_spec (R + 1) rows); lia.
Qed.
(* the places inside the block's padding that are inside the plane *)
Lemma inside n m s i d e1 e2 : s = 4 \/ s = 8 -> 0 <= n < m -> 0 <= i < s -> Z.abs d <= 2 ->
  e1 = (0 <? n) -> e2 = (n + 1 <? m) ->
  (e1 || (0 <=? i + d)) && (e2 || (i + d <? s)) = (0 <=? n * s + (i + d)) && (n * s + (i + d) <? m * s).
Proof. intros Hs Hn Hi Hd -> ->. destruct Hs as [-> | ->]; lia. Qed.
Lemma cand_in x m d : d = 0 \/ d = 1 ->
  (0 <=? x * 2 ^ d / 4) && (x * 2 ^ d / 4 <? 2 * m) = (0 <=? x) && (x <? m * Z.shiftr 8 d).
Proof.
  intros [-> | ->]; [change (Z.shiftr 8 0) with 8; change (2 ^ 0) with 1|change (Z.shiftr 8 1) with 4; change (2 ^ 1) with 2]; dlia.
Qed.

Lemma sb_first sb k : 0 <= k < 8 -> (8 * sb + k) * 2 / 16 * 16 = 16 * sb.
Proof. intros. dlia. Qed.
Lemma pow_cs bd : 8 <= bd <= 12 -> 1 <= 2 ^ (bd - 8) <= 16.
Proof.
  intros H. split; [pose proof (Z.pow_pos_nonneg 2 (bd - 8)); lia|].
  change 16 with (2 ^ 4). apply Z.pow_le_mono_r; lia.
Qed.
Lemma sec_range s : 0 <= Cdef_spec.sec_strength_of_syntax (s mod 4) <= 4.
Proof.
  unfold Cdef_spec.sec_strength_of_syntax. pose proof (Z.mod_pos_bound s 4 ltac:(lia)).
  destruct (Z.eqb_spec (s mod 4) 3); lia.
Qed.
Lemma mul_zero a c : 1 <= c -> (a * c =? 0) = (a =? 0).
Proof. intros H. nia. Qed.

(* the parameters of the filter of one block, as the encoder computes them *)
Definition params (fi : frame_inv) (ci dir var xdec ydec p : Z) : Z * Z * Z * Z :=
  let coeff_shift := f_bit_depth fi - 8 in
  let sec s := if s =? 3 then s + 1 else s in
  if p =? 0 then
    (adjust_strength (Z.shiftl (f_y_str fi ci / CDEF_SEC_STRENGTHS) coeff_shift) var,
     Z.shiftl (sec (f_y_str fi ci mod CDEF_SEC_STRENGTHS)) coeff_shift, f_damping fi + coeff_shift,
     if negb (f_y_str fi ci / CDEF_SEC_STRENGTHS =? 0) then dir else 0)
  else
    (Z.shiftl (f_uv_str fi ci / CDEF_SEC_STRENGTHS) coeff_shift,
     Z.shiftl (sec (f_uv_str fi ci mod CDEF_SEC_STRENGTHS)) coeff_shift, f_damping fi + coeff_shift - 1,
     if negb (f_uv_str fi ci / CDEF_SEC_STRENGTHS =? 0)
     then (if negb (xdec =? ydec) then idx [7; 0; 2; 4; 5; 6; 6; 6] dir else dir)
     else 0).

Section Frame.
Variables (fi : frame_inv) (junk : Z -> Z) (input : Z -> plane) (b : tile_blocks)
  (wb hb sx sy rect_w rect_h : Z).   (* [wb] and [hb]: the frame in blocks of 8x8 luma *)
Definition dx_of (p : Z) : Z := if p =? 0 then 0 else sx.
Definition dy_of (p : Z) : Z := if p =? 0 then 0 else sy.
Record frame_ok : Prop := {
  k_sub : (sx = 0 /\ sy = 0) \/ (sx = 1 /\ sy = 0) \/ (sx = 1 /\ sy = 1);
  k_size : 0 < wb < 2 ^ 50 /\ 0 < hb < 2 ^ 50;
  k_planes : f_planes fi = 1 \/ f_planes fi = 3;
  k_geom : forall p, 0 <= p < f_planes fi ->
    p_xdec (input p) = dx_of p /\ p_ydec (input p) = dy_of p /\
    p_width (input p) = 8 * wb / 2 ^ dx_of p /\ p_height (input p) = 8 * hb / 2 ^ dy_of p;
  k_blocks : b_rows b = 2 * hb /\ b_cols b = 2 * wb;
  k_bd : 8 <= f_bit_depth fi <= 12;
  k_damp : f_damping fi <= 6;
  k_str : forall i, 0 <= f_y_str fi i < 64 /\ 0 <= f_uv_str fi i < 64;
  k_px : forall p y x, 0 <= p < f_planes fi -> 0 <= y < p_height (input p) -> 0 <= x < p_width (input p) ->
    0 <= px (input p) y x < 2 ^ f_bit_depth fi;
  k_rect : (rect_w + 63) / 64 = (8 * wb + 63) / 64 /\ (rect_h + 63) / 64 = (8 * hb + 63) / 64 }.
Hypothesis K : frame_ok.

(* the specification for this frame *)
Definition F (p y x : Z) : Z := px (input p) y x.
Definition G : Z -> Z -> Z -> Z :=
  Cdef_spec.CdefFrame (f_bit_depth fi) (2 * hb) (2 * wb) sx sy F (b_skip b)
    (fun r c => b_cdef b (r / 16 * 16) (c / 16 * 16)) (f_damping fi)
    (fun i => f_y_str fi i / 4) (fun i => Cdef_spec.sec_strength_of_syntax (f_y_str fi i mod 4))
    (fun i => f_uv_str fi i / 4) (fun i => Cdef_spec.sec_strength_of_syntax (f_uv_str fi i mod 4)).
(* row and column of the 8x8 block of luma a sample belongs to *)
Definition Y8 (p y : Z) : Z := (y * 2 ^ dy_of p) / 8.
Definition X8 (p x : Z) : Z := (x * 2 ^ dx_of p) / 8.

Definition skip_of (R C : Z) : bool :=
  b_skip b (2 * R) (2 * C) && b_skip b (2 * R + 1) (2 * C) && b_skip b (2 * R) (2 * C + 1) && b_skip b (2 * R + 1) (2 * C + 1).
Definition sample_of (R C i j : Z) : Z := F 0 (4 * (2 * R) + i) (4 * (2 * C) + j) / 2 ^ (f_bit_depth fi - 8) - 128.
Definition dir_is (R C : Z) (dv : Z * Z) : Prop :=
  fst dv = Cdef_spec.yDir (sample_of R C) /\ snd dv = Cdef_spec.var (sample_of R C).

Lemma dxy p : (dx_of p = 0 \/ dx_of p = 1) /\ (dy_of p = 0 \/ dy_of p = 1).
Proof. pose proof (k_sub K). clear - H. unfold dx_of, dy_of. destruct (p =? 0); lia. Qed.

Lemma skip8_spec sbx sby bx by_ : 0 <= 8 * sbx + bx < wb -> 0 <= 8 * sby + by_ < hb ->
  skip8 b sbx sby bx by_ = Some (skip_of (8 * sby + by_) (8 * sbx + bx)).
Proof.
  intros Hx Hy. unfold skip8, skip_at. destruct (k_blocks K) as [-> ->].
  rewrite !Z.shiftl_mul_pow2 by lia. change (2 ^ 4) with 16. change (2 ^ 1) with 2. cbv zeta.
  repeat match goal with |- context [if ?c then _ else _] => replace c with true by lia end.
  unfold bind, skip_of. f_equal.
  replace (sby * 16 + by_ * 2) with (2 * (8 * sby + by_)) by lia.
  replace (sbx * 16 + bx * 2) with (2 * (8 * sbx + bx)) by lia.
  replace (sby * 16 + 2 * by_) with (2 * (8 * sby + by_)) by lia.
  replace (sbx * 16 + 2 * bx) with (2 * (8 * sbx + bx)) by lia.
  replace (sby * 16 + (2 * by_ + 1)) with (2 * (8 * sby + by_) + 1) by lia.
  replace (sbx * 16 + (2 * bx + 1)) with (2 * (8 * sbx + bx) + 1) by lia.
  rewrite <- !andb_assoc. f_equal. rewrite !andb_assoc. f_equal. apply andb_comm.
Qed.

Definition edges_of (edges R C : Z) : Prop :=
  have edges CDEF_HAVE_LEFT = (0 <? C) /\ have edges CDEF_HAVE_RIGHT = (C + 1 <? wb) /\
  have edges CDEF_HAVE_TOP = (0 <? R) /\ have edges CDEF_HAVE_BOTTOM = (R + 1 <? hb).

Lemma adjust_spec s v : adjust_strength s v =
  (let varStr := if negb (v / 2 ^ 6 =? 0) then Z.min (Z.log2 (v / 2 ^ 6)) 12 else 0 in
   if negb (v =? 0) then (s * (4 + varStr) + 8) / 2 ^ 4 else 0).
Proof.
  unfold adjust_strength, msb. rewrite !Z.shiftr_div_pow2 by lia. reflexivity.
Qed.
Lemma adjust_range s v : 0 <= s <= 240 -> 0 <= v -> 0 <= adjust_strength s v <= 240.
Proof.
  intros Hs Hv. rewrite adjust_spec. cbv zeta.
  destruct (negb (v =? 0)); [|lia].
  set (k := if negb _ then _ else _). assert (0 <= k <= 12).
  { unfold k. destruct (negb _); [|lia]. pose proof (Z.log2_nonneg (v / 2 ^ 6)). lia. }
  assert (0 <= s * (4 + k) <= 240 * 16) by nia. change (2 ^ 4) with 16. dlia.
Qed.

Lemma sample_ok R C : 0 <= R < hb -> 0 <= C < wb ->
  forall i j, 0 <= i < 8 -> 0 <= j < 8 -> Z.abs (sample_of R C i j) <= 128.
Proof.
  intros HR HC i j Hi Hj. pose proof (k_bd K) as Hbd. pose proof (k_planes K) as Hplanes.
  apply (sample_bound (fun i j => F 0 (4 * (2 * R) + i) (4 * (2 * C) + j)) (f_bit_depth fi - 8)); [lia| |assumption|assumption].
  intros i' j' Hi' Hj'. replace (8 + (f_bit_depth fi - 8)) with (f_bit_depth fi) by lia.
  destruct (k_geom K 0 ltac:(lia)) as [_ [_ [G3 G4]]].
  apply (k_px K); [lia| |]; rewrite ?G3, ?G4; cbn [dx_of dy_of Z.eqb]; rewrite Z.pow_0_r, Z.div_1_r; lia.
Qed.

(** the parameters are the specification's *)
Lemma params_spec R C ci dir var p y x : 0 <= p < f_planes fi -> 0 <= R < hb -> 0 <= C < wb ->
  b_cdef b (R * 2 / 16 * 16) (C * 2 / 16 * 16) = ci ->
  Y8 p y = R -> X8 p x = C -> skip_of R C = false -> dir_is R C (dir, var) ->
  let '(pri, sec, damping, ldir) := params fi ci dir var (dx_of p) (dy_of p) p in
  0 <= ldir < 8 /\ damping <= 13 /\ 0 <= pri <= 28672 /\ 0 <= sec <= 28672 /\
  G p y x = Cdef_spec.cdef_filter (f_bit_depth fi) (2 * hb) (2 * wb) sx sy F p pri sec damping ldir y x.
Proof.
  intros Hp HR HC Hci Hy Hx Hskip [Hdir Hvar]. cbn [fst snd] in Hdir, Hvar.
  pose proof (k_bd K) as Hbd. pose proof (k_damp K) as Hdamp. pose proof (pow_cs _ Hbd) as Hcp.
  destruct (k_str K ci) as [Sy Suv].
  assert (Hvr : 0 <= var) by (rewrite Hvar; pose proof (var_range _ (sample_ok R C HR HC)); lia).
  assert (Hdr : 0 <= dir < 8) by (rewrite Hdir; apply best_in).
  unfold G, Cdef_spec.CdefFrame.
  change (Cdef_spec.subY sy p) with (dy_of p). change (Cdef_spec.subX sx p) with (dx_of p).
  fold (Y8 p y) (X8 p x). rewrite Hy, Hx, Hci.
  rewrite (Z.mul_comm R 2), (Z.mul_comm C 2). fold (skip_of R C). rewrite Hskip. cbv zeta.
  unfold Cdef_spec.coeffShift.
  change (fun i j => F 0 (4 * (2 * R) + i) (4 * (2 * C) + j) / 2 ^ (f_bit_depth fi - 8) - 128)
    with (sample_of R C).
  rewrite <- Hdir, <- Hvar, !mul_zero by lia. clear Hdir Hvar.
  unfold params. cbv zeta. rewrite !Z.shiftl_mul_pow2 by lia. unfold CDEF_SEC_STRENGTHS.
  fold (Cdef_spec.sec_strength_of_syntax (f_y_str fi ci mod 4)).
  fold (Cdef_spec.sec_strength_of_syntax (f_uv_str fi ci mod 4)).
  pose proof (sec_range (f_y_str fi ci)) as S1. pose proof (sec_range (f_uv_str fi ci)) as S2.
  assert (P1 : 0 <= f_y_str fi ci / 4 <= 15) by (clear - Sy; dlia).
  assert (P2 : 0 <= f_uv_str fi ci / 4 <= 15) by (clear - Suv; dlia).
  set (s1 := Cdef_spec.sec_strength_of_syntax _) in *. set (s2 := Cdef_spec.sec_strength_of_syntax (f_uv_str fi ci mod 4)) in *.
  set (p1 := f_y_str fi ci / 4) in *. set (p2 := f_uv_str fi ci / 4) in *. clearbody s1 s2 p1 p2.
  set (cs := 2 ^ (f_bit_depth fi - 8)) in *. clearbody cs.
  assert (B1 : 0 <= p1 * cs <= 240) by (clear - P1 Hcp; nia).
  assert (B2 : 0 <= p2 * cs <= 240) by (clear - P2 Hcp; nia).
  assert (B3 : 0 <= s1 * cs <= 240) by (clear - S1 Hcp; nia).
  assert (B4 : 0 <= s2 * cs <= 240) by (clear - S2 Hcp; nia).
  pose proof (adjust_range (p1 * cs) var B1 Hvr) as Ba.
  pose proof (adjust_spec (p1 * cs) var) as Ea. cbv zeta in Ea.
  destruct (Z.eqb_spec p 0) as [->|Hp0].
  - rewrite Ea in Ba |- *. split; [destruct (p1 =? 0); cbn [negb]; lia|].
    split; [lia|]. split; [lia|]. split; [lia|]. destruct (p1 =? 0); reflexivity.
  - assert (Ed : (if negb (dx_of p =? dy_of p) then idx [7; 0; 2; 4; 5; 6; 6; 6] dir else dir) =
       nth (Z.to_nat dir) (Cdef_spec.Cdef_Uv_Dir sx sy) 0).
    { unfold dx_of, dy_of. rewrite (proj2 (Z.eqb_neq p 0)) by assumption.
      pose proof (k_sub K) as Hs. apply dir_cases in Hdr. clear - Hs Hdr.
      destruct Hs as [[-> ->]|[[-> ->]|[-> ->]]];
        destruct Hdr as [->|[->|[->|[->|[->|[->|[->| ->]]]]]]]; reflexivity. }
    rewrite Ed.
    assert (Er : 0 <= nth (Z.to_nat dir) (Cdef_spec.Cdef_Uv_Dir sx sy) 0 < 8).
    { pose proof (k_sub K) as Hs. apply dir_cases in Hdr. clear - Hs Hdr.
      destruct Hs as [[-> ->]|[[-> ->]|[-> ->]]];
        destruct Hdr as [->|[->|[->|[->|[->|[->|[->| ->]]]]]]]; split; vm_compute; (reflexivity || (intro; discriminate)). }
    split; [destruct (p2 =? 0); cbn [negb]; lia|].
    split; [lia|]. split; [lia|]. split; [lia|]. destruct (p2 =? 0); reflexivity.
Qed.

(** one plane of one block *)
Lemma filter_plane_spec sbx sby bx by_ edges dir var out p :
  let R := 8 * sby + by_ in let C := 8 * sbx + bx in
  0 <= p < f_planes fi -> 0 <= R < hb -> 0 <= C < wb -> 0 <= sbx -> 0 <= sby ->
  0 <= bx < 8 -> 0 <= by_ < 8 ->
  edges_of edges R C -> (skip_of R C = false -> dir_is R C (dir, var)) ->
  exists out', filter_plane fi junk input 0 0 sbx sby (b_cdef b (16 * sby) (16 * sbx)) dir var edges bx by_
      (skip_of R C) out p = Some out' /\
    forall p' y x, out' p' y x = if (p' =? p) && (Y8 p y =? R) && (X8 p x =? C) then G p y x else out p' y x.
Proof.
  intros R C Hp HR HC Hsbx Hsby Hbx Hby He Hdv.
  destruct (k_geom K p Hp) as [G1 [G2 [G3 G4]]].
  destruct (k_geom K 0 ltac:(lia)) as [G5 [G6 _]]. pose proof (k_bd K) as Hbd.
  change (dx_of 0) with 0 in G5. change (dy_of 0) with 0 in G6.
  unfold filter_plane. rewrite G5, G6, G1, G2. cbv zeta.
  destruct (dxy p) as [Dx Dy].
  rewrite (in_off (dx_of p)), (in_off (dy_of p)), (out_off (dx_of p)), (out_off (dy_of p)) by assumption.
  fold R C.
  assert (HX8 : forall x, (X8 p x =? C) = (C * Z.shiftr 8 (dx_of p) <=? x) && (x <? C * Z.shiftr 8 (dx_of p) + Z.shiftr 8 (dx_of p)))
    by (intros; now apply cell_eq).
  assert (HY8 : forall y, (Y8 p y =? R) = (R * Z.shiftr 8 (dy_of p) <=? y) && (y <? R * Z.shiftr 8 (dy_of p) + Z.shiftr 8 (dy_of p)))
    by (intros; now apply cell_eq).
  assert (HW : p_width (input p) = wb * Z.shiftr 8 (dx_of p)) by (rewrite G3; now apply plane_dim).
  assert (HH : p_height (input p) = hb * Z.shiftr 8 (dy_of p)) by (rewrite G4; now apply plane_dim).
  pose proof (size_cases _ Dx) as Hbw. pose proof (size_cases _ Dy) as Hbh.
  set (bw := Z.shiftr 8 (dx_of p)) in *. set (bh := Z.shiftr 8 (dy_of p)) in *.
  (* it is enough that the block written is the specification's *)
  assert (Hput : forall v, (forall y x, Y8 p y = R -> X8 p x = C -> v (y - R * bh) (x - C * bw) = G p y x) ->
    forall p' y x, put_block out p (R * bh) (C * bw) bh bw v p' y x =
      if (p' =? p) && (Y8 p y =? R) && (X8 p x =? C) then G p y x else out p' y x).
  { intros v Hv p' y x. unfold put_block. rewrite HX8, HY8, !andb_assoc.
    destruct (_ && _) eqn:E; [|reflexivity]. apply Hv; apply Z.eqb_eq; rewrite ?HY8, ?HX8; lia. }
  destruct (skip_of R C) eqn:Hskip; cbn [negb].
  - (* skipped *)
    eexists. split; [reflexivity|]. apply Hput. intros y x Hy Hx.
    unfold G, Cdef_spec.CdefFrame. fold (Y8 p y) (X8 p x).
    change (Cdef_spec.subY sy p) with (dy_of p). change (Cdef_spec.subX sx p) with (dx_of p).
    fold (Y8 p y) (X8 p x). rewrite Hy, Hx.
    rewrite (Z.mul_comm R 2), (Z.mul_comm C 2). fold (skip_of R C). rewrite Hskip. cbv zeta.
    unfold F. f_equal; lia.
  - specialize (Hdv eq_refl). destruct Hdv as [Hdir Hvar]. cbn [fst snd] in Hdir, Hvar.
    destruct He as [E1 [E2 [E3 E4]]].
    match goal with |- context [if p =? 0 then ?e1 else ?e2] =>
      change (if p =? 0 then e1 else e2) with (params fi (b_cdef b (16 * sby) (16 * sbx)) dir var (dx_of p) (dy_of p) p) end.
    assert (Hci : b_cdef b (R * 2 / 16 * 16) (C * 2 / 16 * 16) = b_cdef b (16 * sby) (16 * sbx))
      by (unfold R, C; now rewrite !sb_first).
    pose proof (fun y x Hy Hx => params_spec R C _ dir var p y x Hp HR HC Hci Hy Hx Hskip (conj Hdir Hvar)) as Hpar.
    destruct (params _ _ _ _ _ _ _) as [[[pri sec] damping] ldir].
    rewrite E1, E2, E3, E4, HW, HH.
    rewrite (asserts_hold (C * bw) (R * bh) (wb * bw) (hb * bh) bw bh R C hb wb (room C wb bw Hbw HC) (room R hb bh Hbh HR)).
    eexists. split; [reflexivity|]. apply Hput. intros y x Hy Hx.
    specialize (Hpar y x Hy Hx). destruct Hpar as [Q1 [Q2 [Q3 [Q4 ->]]]].
    assert (Hyy : 0 <= y - R * bh < bh) by (apply Z.eqb_eq in Hy; rewrite HY8 in Hy; clear - Hy; lia).
    assert (Hxx : 0 <= x - C * bw < bw) by (apply Z.eqb_eq in Hx; rewrite HX8 in Hx; clear - Hx; lia).
    assert (Hpow : 2 ^ f_bit_depth fi <= 4096) by (change 4096 with (2 ^ 12); apply Z.pow_le_mono_r; lia).
    assert (Hadr : forall r c, (R * bh * p_stride (input p) + C * bw) + r * p_stride (input p) + c
       = (R * bh + r) * p_stride (input p) + (C * bw + c)) by (intros; lia).
    rewrite filter_block_spec; try assumption; try (clear - Dx; lia); try (clear - Dy; lia); try (clear - Hbd; lia).
    + rewrite cdef_filter_taps.
      assert (Ev : p_mem (input p) (R * bh * p_stride (input p) + C * bw + (y - R * bh) * p_stride (input p) + (x - C * bw)) = F p y x).
      { rewrite Hadr. unfold F, px. f_equal. lia. }
      rewrite Ev. f_equal. f_equal. apply spec_taps_ext; [assumption|].
      intros dy dx Hdy Hdx. rewrite (proj2 (Z.leb_le _ _) Hdy), (proj2 (Z.leb_le _ _) Hdx). cbn [andb].
      unfold Cdef_spec.cdef_get_at. cbv zeta.
      change (Cdef_spec.subY sy p) with (dy_of p). change (Cdef_spec.subX sx p) with (dx_of p).
      fold bw bh.
      pose proof (cand_in (x + dx) wb (dx_of p) Dx) as I1. pose proof (cand_in (y + dy) hb (dy_of p) Dy) as I2.
      fold bw in I1. fold bh in I2. rewrite <- !andb_assoc.
      rewrite (andb_assoc (0 <=? (x + dx) * 2 ^ dx_of p / 4)). rewrite I1, I2.
      unfold edge_ok. rewrite <- !andb_assoc.
      rewrite (andb_assoc (have edges CDEF_HAVE_LEFT || _)).
      rewrite (inside C wb bw (x - C * bw) dx _ _ Hbw HC Hxx Hdx E1 E2).
      rewrite (inside R hb bh (y - R * bh) dy _ _ Hbh HR Hyy Hdy E3 E4).
      replace (C * bw + (x - C * bw + dx)) with (x + dx) by lia.
      replace (R * bh + (y - R * bh + dy)) with (y + dy) by lia.
      rewrite <- !andb_assoc.
      match goal with |- (if ?c then _ else _) = _ => destruct c end; [|reflexivity].
      f_equal. rewrite Hadr. unfold F, px. f_equal. lia.
    + intros r c Hok Hr Hc. rewrite Hadr.
      change (0 <= px (input p) (R * bh + r) (C * bw + c) < 4096).
      enough (P : 0 <= px (input p) (R * bh + r) (C * bw + c) < 2 ^ f_bit_depth fi)
        by (clear - P Hpow; lia).
      unfold edge_ok in Hok. fold bw bh in Hok, Hr, Hc.
      rewrite E1, E2, E3, E4 in Hok.
      apply (k_px K); [assumption| |]; rewrite ?HW, ?HH.
      * clear - Hok Hr Hbh HR. destruct Hbh as [-> | ->]; lia.
      * clear - Hok Hc Hbw HC. destruct Hbw as [-> | ->]; lia.
Qed.

(** ** The loops.  [within o out r0 r1 c0 c1]: [o] is the filtered frame on the blocks of rows
    [r0] to [r1] and columns [c0] to [c1] (excluded), and [out] elsewhere. *)
Definition reg (p y x r0 r1 c0 c1 : Z) : bool :=
  (0 <=? p) && (p <? f_planes fi) && ((r0 <=? Y8 p y) && (Y8 p y <? r1) && (c0 <=? X8 p x) && (X8 p x <? c1)).
Definition within (o out : Z -> Z -> Z -> Z) (r0 r1 c0 c1 : Z) : Prop :=
  forall p y x, o p y x = if reg p y x r0 r1 c0 c1 then G p y x else out p y x.

Lemma planes_spec sbx sby bx by_ edges dir var out :
  let R := 8 * sby + by_ in let C := 8 * sbx + bx in
  0 <= R < hb -> 0 <= C < wb -> 0 <= sbx -> 0 <= sby -> 0 <= bx < 8 -> 0 <= by_ < 8 ->
  edges_of edges R C -> (skip_of R C = false -> dir_is R C (dir, var)) ->
  exists out', ofold (filter_plane fi junk input 0 0 sbx sby (b_cdef b (16 * sby) (16 * sbx)) dir var edges bx by_
      (skip_of R C)) (zrange 0 (f_planes fi)) out = Some out' /\ within out' out R (R + 1) C (C + 1).
Proof.
  intros R C HR HC Hsbx Hsby Hbx Hby He Hdv.
  assert (Hn : 0 <= f_planes fi) by (pose proof (k_planes K); lia).
  destruct (ofold_inv (filter_plane fi junk input 0 0 sbx sby (b_cdef b (16 * sby) (16 * sbx)) dir var edges bx by_
      (skip_of R C)) (fun k o => forall p y x, o p y x =
        if (0 <=? p) && (p <? k) && ((R <=? Y8 p y) && (Y8 p y <? R + 1) && (C <=? X8 p x) && (X8 p x <? C + 1))
        then G p y x else out p y x) (f_planes fi) Hn out) as [o [Eo Po]].
  - intros p y x. replace ((0 <=? p) && (p <? 0)) with false by lia. reflexivity.
  - intros k o Hk Po.
    destruct (filter_plane_spec sbx sby bx by_ edges dir var o k Hk HR HC Hsbx Hsby Hbx Hby He Hdv) as [o' [Eo' Po']].
    exists o'. split; [exact Eo'|]. intros p y x. rewrite Po'. fold R C.
    destruct (Z.eqb_spec p k) as [->|Hpk]; cbn [andb].
    + replace ((0 <=? k) && (k <? k + 1)) with true by lia. cbn [andb].
      replace ((R <=? Y8 k y) && (Y8 k y <? R + 1) && (C <=? X8 k x) && (X8 k x <? C + 1))
        with ((Y8 k y =? R) && (X8 k x =? C)) by lia.
      destruct (_ && _); [reflexivity|]. rewrite Po. replace ((0 <=? k) && (k <? k)) with false by lia. reflexivity.
    + rewrite Po. replace (p <? k + 1) with (p <? k) by lia. reflexivity.
  - exists o. split; [exact Eo|]. intros p y x. rewrite Po. reflexivity.
Qed.

Lemma within_refl out r0 r1 c0 c1 : r1 <= r0 \/ c1 <= c0 -> within out out r0 r1 c0 c1.
Proof.
  intros H p y x. unfold reg. replace (_ && _) with false by (clear - H; lia). reflexivity.
Qed.
Lemma within_trans_c o1 o2 out r0 r1 c0 c1 c2 : c0 <= c1 <= c2 ->
  within o1 out r0 r1 c0 c1 -> within o2 o1 r0 r1 c1 c2 -> within o2 out r0 r1 c0 c2.
Proof.
  intros H H1 H2 p y x. rewrite H2, H1. unfold reg.
  set (u := Y8 p y). set (v := X8 p x). clearbody u v. clear - H.
  repeat match goal with |- context [if ?c then _ else _] => destruct c eqn:? end; try reflexivity; exfalso; lia.
Qed.
Lemma within_trans_r o1 o2 out r0 r1 r2 c0 c1 : r0 <= r1 <= r2 ->
  within o1 out r0 r1 c0 c1 -> within o2 o1 r1 r2 c0 c1 -> within o2 out r0 r2 c0 c1.
Proof.
  intros H H1 H2 p y x. rewrite H2, H1. unfold reg.
  set (u := Y8 p y). set (v := X8 p x). clearbody u v. clear - H.
  repeat match goal with |- context [if ?c then _ else _] => destruct c eqn:? end; try reflexivity; exfalso; lia.
Qed.

(* the flags after the operations of the loops *)
Lemma flag_ops e : 
  Z.testbit (Z.lor e CDEF_HAVE_LEFT) 0 = true /\ Z.testbit (Z.lor e CDEF_HAVE_LEFT) 1 = Z.testbit e 1 /\
  Z.testbit (Z.lor e CDEF_HAVE_LEFT) 2 = Z.testbit e 2 /\ Z.testbit (Z.lor e CDEF_HAVE_LEFT) 3 = Z.testbit e 3.
Proof.
  rewrite !Z.lor_spec. change (Z.testbit CDEF_HAVE_LEFT 0) with true. change (Z.testbit CDEF_HAVE_LEFT 1) with false.
  change (Z.testbit CDEF_HAVE_LEFT 2) with false. change (Z.testbit CDEF_HAVE_LEFT 3) with false.
  rewrite !orb_false_r, orb_true_r. auto.
Qed.

Lemma avail8 n sb : 0 < n < 2 ^ 50 -> 0 <= sb -> 8 * sb < n ->
  Z.shiftr (usize (8 * n - (0 + Z.shiftl sb (6 - 0)))) 3 = n - 8 * sb.
Proof.
  intros Hn Hs Hsn. rewrite Z.shiftl_mul_pow2 by lia. change (2 ^ (6 - 0)) with 64.
  unfold usize. rewrite Z.mod_small by lia. rewrite Z.shiftr_div_pow2 by lia. change (2 ^ 3) with 8. dlia.
Qed.

Definition bits_are (e : Z) (l r t bt : bool) : Prop :=
  Z.testbit e 0 = l /\ Z.testbit e 1 = r /\ Z.testbit e 2 = t /\ Z.testbit e 3 = bt.

Ltac bits := unfold bits_are, clear in *; rewrite ?Z.lor_spec, ?Z.land_spec in *;
  repeat match goal with |- context [Z.testbit ?c ?k] =>
    let v := eval vm_compute in (Z.testbit c k) in
    match v with true => idtac | false => idtac end; change (Z.testbit c k) with v end;
  rewrite ?orb_false_r, ?orb_true_r, ?andb_false_r, ?andb_true_r.

Lemma superblock_spec sbx sby dirs out : 0 <= sbx -> 0 <= sby -> 8 * sbx < wb -> 8 * sby < hb ->
  (forall bx by_, 0 <= bx < 8 -> 0 <= by_ < 8 -> 8 * sbx + bx < wb -> 8 * sby + by_ < hb ->
    skip_of (8 * sby + by_) (8 * sbx + bx) = false -> dir_is (8 * sby + by_) (8 * sbx + bx) (dirs bx by_)) ->
  exists out', cdef_filter_superblock fi junk input b 0 0 sbx sby (b_cdef b (16 * sby) (16 * sbx)) dirs out = Some out' /\
    within out' out (8 * sby) (Z.min hb (8 * sby + 8)) (8 * sbx) (Z.min wb (8 * sbx + 8)).
Proof.
  intros Hsbx Hsby Hwb Hhb Hdirs. unfold cdef_filter_superblock.
  destruct (k_geom K 0) as [G1 [G2 [G3 G4]]]; [pose proof (k_planes K); lia|].
  change (dx_of 0) with 0 in G1, G3. change (dy_of 0) with 0 in G2, G4.
  change (2 ^ 0) with 1 in G3, G4. rewrite Z.div_1_r in G3, G4. rewrite G1, G2, G3, G4. cbv zeta.
  destruct (k_size K) as [Sw Sh]. rewrite !avail8 by assumption.
  destruct (k_blocks K) as [Br Bc].
  set (topf := if 0 <? sby + 0 then CDEF_HAVE_TOP else 0). set (leftf := if 0 <? sbx + 0 then CDEF_HAVE_LEFT else 0).
  set (row := fun (st : Z * (Z -> Z -> Z -> Z)) (by_ : Z) => _).
  destruct (ofold_inv row (fun k st => bits_are (fst st) (Z.testbit (fst st) 0) (Z.testbit (fst st) 1) (0 <? 8 * sby + k) (8 * sby + k <? hb)
     /\ within (snd st) out (8 * sby) (Z.min hb (8 * sby + k)) (8 * sbx) (Z.min wb (8 * sbx + 8))) 8 ltac:(lia)
     (Z.lor topf CDEF_HAVE_BOTTOM, out)) as [st [Est Pst]].
  - cbn [fst snd]. split.
    + unfold topf. replace (0 <? 8 * sby + 0) with (0 <? sby + 0) by lia.
      replace (8 * sby + 0 <? hb) with true by lia. destruct (0 <? sby + 0); bits; auto.
    + apply within_refl. lia.
  - intros k [e o] Hk [He Ho]. cbn [fst snd] in He, Ho. unfold row.
    set (e1 := if hb - 8 * sby <=? k + 1 then clear e CDEF_HAVE_BOTTOM else e).
    assert (He1 : bits_are e1 (Z.testbit e1 0) (Z.testbit e1 1) (0 <? 8 * sby + k) (8 * sby + k + 1 <? hb)).
    { unfold e1. destruct He as [_ [_ [B2 B3]]]. unfold bits_are.
      destruct (Z.leb_spec (hb - 8 * sby) (k + 1)).
      - bits. rewrite B2. replace (8 * sby + k + 1 <? hb) with false by lia. auto.
      - rewrite B2, B3. split; [reflexivity|]. split; [reflexivity|]. split; [reflexivity|]. lia. }
    clearbody e1. clear He.
    set (e2 := Z.lor (Z.lor (clear e1 CDEF_HAVE_LEFT) leftf) CDEF_HAVE_RIGHT).
    assert (He2 : bits_are e2 (0 <? 8 * sbx + 0) (8 * sbx + 0 <? wb) (0 <? 8 * sby + k) (8 * sby + k + 1 <? hb)).
    { unfold e2, leftf. destruct He1 as [_ [_ [B2 B3]]].
      replace (0 <? 8 * sbx + 0) with (0 <? sbx + 0) by lia. replace (8 * sbx + 0 <? wb) with true by lia.
      destruct (0 <? sbx + 0); bits; rewrite ?B2, ?B3; auto. }
    clearbody e2. clear He1 e1.
    set (cell := fun (st : Z * (Z -> Z -> Z -> Z)) (bx : Z) => _).
    destruct (ofold_inv cell (fun j st => bits_are (fst st) (0 <? 8 * sbx + j) (8 * sbx + j <? wb) (0 <? 8 * sby + k) (8 * sby + k + 1 <? hb)
      /\ within (snd st) o (8 * sby + k) (Z.min hb (8 * sby + k + 1)) (8 * sbx) (Z.min wb (8 * sbx + j))) 8 ltac:(lia) (e2, o))
      as [[e3 o3] [E3 [P3 Q3]]].
    + cbn [fst snd]. split; [exact He2|]. apply within_refl. lia.
    + intros j [f oj] Hj [Hf Hoj]. cbn [fst snd] in Hf, Hoj. unfold cell.
      set (f1 := if wb - 8 * sbx <=? j + 1 then clear f CDEF_HAVE_RIGHT else f).
      assert (Hf1 : bits_are f1 (0 <? 8 * sbx + j) (8 * sbx + j + 1 <? wb) (0 <? 8 * sby + k) (8 * sby + k + 1 <? hb)).
      { unfold f1. destruct Hf as [B0 [B1 [B2 B3]]]. unfold bits_are.
        destruct (Z.leb_spec (wb - 8 * sbx) (j + 1)).
        - bits. rewrite B0, B2, B3. replace (8 * sbx + j + 1 <? wb) with false by lia. auto.
        - rewrite B0, B1, B2, B3. split; [reflexivity|]. split; [lia|]. auto. }
      clearbody f1. clear Hf.
      rewrite !Z.shiftl_mul_pow2 by lia. change (2 ^ 4) with 16. change (2 ^ 1) with 2. rewrite Br, Bc.
      assert (Hf2 : bits_are (Z.lor f1 CDEF_HAVE_LEFT) (0 <? 8 * sbx + (j + 1)) (8 * sbx + (j + 1) <? wb) (0 <? 8 * sby + k) (8 * sby + k + 1 <? hb)).
      { destruct Hf1 as [B0 [B1 [B2 B3]]]. bits. rewrite B1, B2, B3.
        replace (0 <? 8 * sbx + (j + 1)) with true by lia. rewrite Z.add_assoc. auto. }
      replace ((sbx * 16 + j * 2 <? 2 * wb) && (sby * 16 + k * 2 <? 2 * hb))
        with ((8 * sbx + j <? wb) && (8 * sby + k <? hb)) by lia.
      destruct (Z.ltb_spec (8 * sbx + j) wb) as [Hjw|Hjw]; [destruct (Z.ltb_spec (8 * sby + k) hb) as [Hkh|Hkh]|]; cbn [andb].
      * rewrite skip8_spec by lia. cbn [bind].
        destruct (dirs j k) as [dir var] eqn:Ed.
        destruct (planes_spec sbx sby j k f1 dir var oj) as [o' [Eo' Po']]; try lia.
        { unfold edges_of. rewrite have_L, have_R, have_T, have_B. exact Hf1. }
        { intros Hs. rewrite <- Ed. apply Hdirs; first [assumption|lia]. }
        rewrite Eo'. cbn [bind]. exists (Z.lor f1 CDEF_HAVE_LEFT, o'). split; [reflexivity|].
        cbn [fst snd]. split; [exact Hf2|].
        replace (Z.min wb (8 * sbx + (j + 1))) with (8 * sbx + j + 1) by lia.
        replace (Z.min wb (8 * sbx + j)) with (8 * sbx + j) in Hoj by lia.
        replace (Z.min hb (8 * sby + k + 1)) with (8 * sby + k + 1) in * by lia.
        refine (within_trans_c _ _ _ _ _ _ _ _ _ Hoj Po'). lia.
      * exists (Z.lor f1 CDEF_HAVE_LEFT, oj). split; [reflexivity|]. cbn [fst snd]. split; [exact Hf2|].
        refine (within_trans_c _ _ _ _ _ _ _ _ _ Hoj (within_refl _ _ _ _ _ _)); lia.
      * exists (Z.lor f1 CDEF_HAVE_LEFT, oj). split; [reflexivity|]. cbn [fst snd]. split; [exact Hf2|].
        refine (within_trans_c _ _ _ _ _ _ _ _ _ Hoj (within_refl _ _ _ _ _ _)); lia.
    + fold cell. rewrite E3. cbn [bind fst snd] in *.
      exists (Z.lor e3 CDEF_HAVE_TOP, o3). split; [reflexivity|]. cbn [fst snd]. split.
      * destruct P3 as [B0 [B1 [B2 B3]]]. bits. rewrite B3.
        replace (0 <? 8 * sby + (k + 1)) with true by lia. rewrite Z.add_assoc. auto.
      * rewrite Z.add_assoc. destruct (Z.lt_ge_cases (8 * sby + k) hb).
        -- replace (Z.min hb (8 * sby + k)) with (8 * sby + k) in Ho by lia.
           refine (within_trans_r _ _ _ _ _ _ _ _ _ Ho Q3). lia.
        -- replace (Z.min hb (8 * sby + k + 1)) with (Z.min hb (8 * sby + k)) in * by lia.
           intros p y x. rewrite Q3. unfold reg at 1.
           match goal with |- (if ?c then _ else _) = _ => replace c with false by (clear - H; lia) end.
           apply Ho.
  - fold row. rewrite Est. cbn [bind]. eexists. split; [reflexivity|]. destruct Pst as [_ P]. exact P.
Qed.

(** the direction search of a superblock *)
Lemma analyze_spec sbx sby : 0 <= sbx -> 0 <= sby ->
  exists dirs, cdef_analyze_superblock fi input b sbx sby = Some dirs /\
    (forall bx by_, 0 <= bx < 8 -> 0 <= by_ < 8 -> 8 * sbx + bx < wb -> 8 * sby + by_ < hb ->
    skip_of (8 * sby + by_) (8 * sbx + bx) = false -> dir_is (8 * sby + by_) (8 * sbx + bx) (dirs bx by_)).
Proof.
  intros Hsbx Hsby. unfold cdef_analyze_superblock. cbv zeta.
  pose proof (k_bd K) as Hbd.
  destruct (k_geom K 0) as [G1 [G2 [G3 G4]]]; [pose proof (k_planes K); lia|].
  change (dx_of 0) with 0 in G1, G3. change (dy_of 0) with 0 in G2, G4.
  change (2 ^ 0) with 1 in G3, G4. rewrite Z.div_1_r in G3, G4. rewrite G1, G2.
  destruct (k_blocks K) as [Br Bc].
  set (good := fun (dirs : Z -> Z -> Z * Z) (k j : Z) => forall bx by_, 0 <= bx < 8 -> 0 <= by_ < 8 ->
    (by_ < k \/ (by_ = k /\ bx < j)) -> 8 * sbx + bx < wb -> 8 * sby + by_ < hb ->
    skip_of (8 * sby + by_) (8 * sbx + bx) = false -> dir_is (8 * sby + by_) (8 * sbx + bx) (dirs bx by_)).
  match goal with |- exists _, ofold ?f _ _ = _ /\ _ =>
    destruct (ofold_inv f (fun k d => good d k 0) 8 ltac:(lia) (fun _ _ => (0, 0))) as [d [Ed Pd]] end.
  - unfold good. intros. exfalso. lia.
  - intros k d Hk Hd.
    match goal with |- exists _, ofold ?f _ _ = _ /\ _ =>
      destruct (ofold_inv f (fun j d => good d k j) 8 ltac:(lia) d) as [d' [Ed' Pd']] end.
    + exact Hd.
    + intros j dj Hj Hdj.
      rewrite !Z.shiftl_mul_pow2 by lia. change (2 ^ 4) with 16. change (2 ^ 1) with 2. rewrite Br, Bc.
      replace ((sbx * 16 + j * 2 <? 2 * wb) && (sby * 16 + k * 2 <? 2 * hb))
        with ((8 * sbx + j <? wb) && (8 * sby + k <? hb)) by lia.
      destruct (Z.ltb_spec (8 * sbx + j) wb) as [Hjw|Hjw]; [destruct (Z.ltb_spec (8 * sby + k) hb) as [Hkh|Hkh]|]; cbn [andb].
      * rewrite skip8_spec by lia. cbn [bind].
        destruct (skip_of (8 * sby + k) (8 * sbx + j)) eqn:Hs; cbn [negb].
        -- exists dj. split; [reflexivity|]. unfold good. intros bx by_ Hbx Hby Ho W1 W2 Hs'.
           assert (by_ < k \/ (by_ = k /\ bx < j) \/ (by_ = k /\ bx = j)) as [O|[O|[-> ->]]] by lia.
           ++ apply Hdj; auto; lia.
           ++ apply Hdj; auto; lia.
           ++ congruence.
        -- eexists. split; [reflexivity|]. unfold good. intros bx by_ Hbx Hby Ho W1 W2 Hs'.
           destruct (Z.eqb_spec bx j) as [->|]; [destruct (Z.eqb_spec by_ k) as [->|]|]; cbn [andb].
           ++ set (img := fun i i0 => _).
              assert (Hi : image_ok img (f_bit_depth fi - 8)).
              { intros i' j' Hi' Hj'. unfold img. replace (8 + (f_bit_depth fi - 8)) with (f_bit_depth fi) by lia.
                rewrite !Z.sub_0_r. change (2 ^ 6) with 64.
                apply (k_px K); [pose proof (k_planes K); lia| |]; rewrite ?G3, ?G4; lia. }
              rewrite (find_dir_spec img _) by (assumption || lia).
              destruct (dir_ext (sample img (f_bit_depth fi - 8)) (sample_of (8 * sby + k) (8 * sbx + j))) as [X1 X2].
              { intros i' j'. unfold sample, sample_of, img, F. rewrite !Z.sub_0_r. change (2 ^ 6) with 64.
                f_equal. f_equal. f_equal; lia. }
              split; cbn [fst snd]; assumption.
           ++ apply Hdj; auto. lia.
           ++ apply Hdj; auto. lia.
      * exists dj. split; [reflexivity|]. unfold good. intros bx by_ Hbx Hby Ho W1 W2 Hs'.
        apply Hdj; auto. lia.
      * exists dj. split; [reflexivity|]. unfold good. intros bx by_ Hbx Hby Ho W1 W2 Hs'.
        apply Hdj; auto. lia.
    + exists d'. split; [exact Ed'|]. unfold good. intros bx by_ Hbx Hby Ho W1 W2 Hs'. apply Pd'; auto. lia.
  - exists d. split; [exact Ed|]. intros bx by_ Hbx Hby W1 W2 Hs. apply Pd; auto. lia.
Qed.

(** ** The frame *)
Theorem tile_spec out :
  exists out', cdef_filter_tile fi junk input b 0 0 rect_w rect_h out = Some out' /\
    within out' out 0 hb 0 wb.
Proof.
  unfold cdef_filter_tile. cbv zeta. destruct (k_rect K) as [-> ->].
  destruct (k_size K) as [Sw Sh]. destruct (k_blocks K) as [Br Bc].
  set (fw := (8 * wb + 63) / 64). set (fh := (8 * hb + 63) / 64).
  assert (Fw : 8 * (fw - 1) < wb <= 8 * fw) by (unfold fw; clear; dlia).
  assert (Fh : 8 * (fh - 1) < hb <= 8 * fh) by (unfold fh; clear; dlia).
  clearbody fw fh.
  match goal with |- exists _, ofold ?f _ _ = _ /\ _ =>
    destruct (ofold_inv f (fun k o => within o out 0 (Z.min hb (8 * k)) 0 wb) fh ltac:(lia) out) as [o [Eo Po]] end.
  - apply within_refl. lia.
  - intros k o Hk Ho.
    match goal with |- exists _, ofold ?f _ _ = _ /\ _ =>
      destruct (ofold_inv f (fun j o' => within o' o (8 * k) (Z.min hb (8 * k + 8)) 0 (Z.min wb (8 * j))) fw ltac:(lia) o) as [o2 [Eo2 Po2]] end.
    + apply within_refl. lia.
    + intros j oj Hj Hoj. unfold cdef_at.
      rewrite !Z.shiftl_mul_pow2 by lia. change (2 ^ 4) with 16. rewrite Br, Bc.
      replace ((0 <=? k * 16) && (k * 16 <? 2 * hb) && (0 <=? j * 16) && (j * 16 <? 2 * wb)) with true by lia.
      cbn [bind]. destruct (analyze_spec j k) as [dirs [Ed Hd]]; [lia|lia|]. rewrite Ed. cbn [bind].
      rewrite (Z.mul_comm k 16), (Z.mul_comm j 16).
      destruct (superblock_spec j k dirs oj) as [o' [Eo' Po']]; [lia|lia|lia|lia|exact Hd|].
      exists o'. split; [exact Eo'|].
      replace (8 * (j + 1)) with (8 * j + 8) by lia.
      replace (Z.min wb (8 * j)) with (8 * j) in Hoj by lia.
      refine (within_trans_c _ _ _ _ _ _ _ _ _ Hoj Po'). lia.
    + exists o2. split; [exact Eo2|]. replace (8 * (k + 1)) with (8 * k + 8) by lia.
      replace (Z.min wb (8 * fw)) with wb in Po2 by lia.
      replace (Z.min hb (8 * k)) with (8 * k) in Ho by lia.
      refine (within_trans_r _ _ _ _ _ _ _ _ _ Ho Po2). lia.
  - exists o. split; [exact Eo|]. replace (Z.min hb (8 * fh)) with hb in Po by lia. exact Po.
Qed.
End Frame.
