(** The superblock queue of a tile is empty at the end and writes every
    superblock once, in order. *)
From Verif Require Import Base Bits Tile_model Tile_proof Lrf_model.

(** ** Raster order *)
Lemma zrange_snoc a n : 0 <= n -> zrange a (n + 1) = zrange a n ++ [a + n].
Proof.
  intros Hn. unfold zrange. replace (Z.to_nat (n + 1)) with (S (Z.to_nat n)) by lia.
  rewrite seq_S, map_app. cbn [map]. do 2 f_equal. lia.
Qed.
Lemma zrange_0 a : zrange a 0 = [].
Proof. reflexivity. Qed.

Lemma row_ind {S} (step : S -> Z * Z -> S) X y (P : Z -> S -> Prop) :
  (forall x s, 0 <= x < X -> P x s -> P (x + 1) (step s (x, y))) ->
  forall n s, 0 <= n <= X -> P 0 s -> P n (fold_left step (map (fun x => (x, y)) (zrange 0 n)) s).
Proof.
  intros St n s Hn H0. destruct Hn as [Hn Hx]. revert Hx. pattern n. apply natlike_ind; [|clear n Hn|exact Hn].
  - intros _. rewrite zrange_0. exact H0.
  - intros n Hn IH Hx. rewrite <- Z.add_1_r, zrange_snoc, map_app, fold_left_app by lia. cbn [map fold_left].
    apply St; [lia|]. apply IH. lia.
Qed.
Lemma raster_ind {S} (step : S -> Z * Z -> S) X Y (P : Z -> Z -> S -> Prop) s0 : 0 <= X -> 0 <= Y ->
  P 0 0 s0 -> (forall x y s, 0 <= x < X -> 0 <= y < Y -> P x y s -> P (x + 1) y (step s (x, y))) ->
  (forall y s, 0 <= y < Y -> P X y s -> P 0 (y + 1) s) ->
  P 0 Y (fold_left step (raster X Y) s0).
Proof.
  intros HX HY H0 St Nl. unfold raster.
  assert (G : forall n, 0 <= n -> n <= Y -> P 0 n (fold_left step (flat_map (fun y => map (fun x => (x, y)) (zrange 0 X)) (zrange 0 n)) s0)).
  { intros n Hn. pattern n. apply natlike_ind; [|clear n Hn|exact Hn].
    - intros _. rewrite zrange_0. exact H0.
    - intros n Hn IH Hy. rewrite <- Z.add_1_r, zrange_snoc, flat_map_app, fold_left_app by lia. cbn [flat_map].
      rewrite app_nil_r, Z.add_0_l. apply Nl; [lia|].
      apply (row_ind step X n (fun x s => P x n s)); [|lia|apply IH; lia].
      intros x s Hx H. apply St; [exact Hx|lia|exact H]. }
  apply G; lia.
Qed.

(** ** Division facts *)
Lemma div_succ_cases a b : 0 < b ->
  (a mod b = b - 1 /\ (a + 1) / b = a / b + 1 /\ (a + 1) mod b = 0) \/
  (a mod b <> b - 1 /\ (a + 1) / b = a / b /\ (a + 1) mod b = a mod b + 1).
Proof.
  intros Hb. pose proof (Z.div_mod a b ltac:(lia)) as E. pose proof (Z.mod_pos_bound a b Hb) as M.
  destruct (Z.eq_dec (a mod b) (b - 1)) as [L|L].
  - left. split; [exact L|]. split.
    + symmetry. apply Z.div_unique with 0; lia.
    + symmetry. apply Z.mod_unique with (a / b + 1); lia.
  - right. split; [exact L|]. split.
    + symmetry. apply Z.div_unique with (a mod b + 1); lia.
    + symmetry. apply Z.mod_unique with (a / b); lia.
Qed.
Lemma div_ceil_cases a b : 0 < b -> 
  (a mod b = 0 /\ div_ceil a b = a / b) \/ (a mod b <> 0 /\ div_ceil a b = a / b + 1).
Proof.
  intros Hb. pose proof (Z.div_mod a b ltac:(lia)) as E. pose proof (Z.mod_pos_bound a b Hb) as M.
  destruct (Z.eq_dec (a mod b) 0) as [L|L]; [left|right]; (split; [exact L|]); apply div_ceil_spec; lia.
Qed.
Lemma div_ceil_succ a b : 0 < b -> div_ceil (a + 1) b = a / b + 1.
Proof.
  intros Hb. pose proof (Z.div_mod a b ltac:(lia)) as E. pose proof (Z.mod_pos_bound a b Hb) as M. apply div_ceil_spec; lia.
Qed.

(** ** One plane *)
Section Plane.
Variables (gx gy X Y : Z).
Record good (p : tplane) : Prop := {
  g_h : 0 <= tp_h p; g_v : 0 <= tp_v p;
  g_cols : 0 <= tp_cols p <= div_ceil X (2 ^ tp_h p);
  g_rows : 0 <= tp_rows p <= div_ceil Y (2 ^ tp_v p);
  g_fx : 0 <= gx /\ gx + X <= tp_fcols p;
  g_fy : 0 <= gy /\ gy + Y <= tp_frows p;
  g_ex : X mod 2 ^ tp_h p = 0 \/ gx + X = tp_fcols p;
  g_ey : Y mod 2 ^ tp_v p = 0 \/ gy + Y = tp_frows p
}.

Definition inside (p : tplane) (x y : Z) : bool := (x / 2 ^ tp_h p <? tp_cols p) && (y / 2 ^ tp_v p <? tp_rows p).
Lemma ru_index_inside p x y b : good p -> 0 <= x < X -> 0 <= y < Y -> inside p x y = true ->
  ru_index p x y b = Some (x / 2 ^ tp_h p, y / 2 ^ tp_v p).
Proof.
  intros G Hx Hy I. apply andb_true_iff in I. destruct I as [I1 I2]. apply Z.ltb_lt in I1, I2.
  pose proof (pow2_pos _ (g_h p G)). pose proof (pow2_pos _ (g_v p G)).
  assert (0 <= x / 2 ^ tp_h p) by (apply Z.div_pos; lia). assert (0 <= y / 2 ^ tp_v p) by (apply Z.div_pos; lia).
  unfold ru_index. destruct (Z.ltb_spec 0 (tp_rows p)); [|lia]. destruct (Z.ltb_spec 0 (tp_cols p)); [|lia]. cbn [andb].
  destruct (Z.leb_spec (tp_cols p) (x / 2 ^ tp_h p)); [lia|]. destruct (Z.leb_spec (tp_rows p) (y / 2 ^ tp_v p)); [lia|].
  rewrite !andb_false_r. cbn [orb andb]. rewrite !Z.sub_0_r.
  destruct (Z.ltb_spec (x / 2 ^ tp_h p) (tp_cols p)); [|lia]. destruct (Z.ltb_spec (y / 2 ^ tp_v p) (tp_rows p)); [|lia].
  reflexivity.
Qed.
Lemma ru_index_outside p x y : good p -> 0 <= x < X -> 0 <= y < Y -> inside p x y = false -> ru_index p x y false = None.
Proof.
  intros G Hx Hy I. destruct (g_fx p G), (g_fy p G).
  unfold ru_index. destruct ((0 <? tp_rows p) && (0 <? tp_cols p)); [|reflexivity].
  destruct (Z.ltb_spec x (tp_fcols p)); [|lia]. destruct (Z.ltb_spec y (tp_frows p)); [|lia]. cbn [andb negb].
  unfold inside in I. rewrite !Z.ltb_antisym in I. apply andb_false_iff in I.
  assert (Q : (tp_cols p <=? x / 2 ^ tp_h p) || (tp_rows p <=? y / 2 ^ tp_v p) = true).
  { apply orb_true_iff. destruct I as [I|I]; apply negb_false_iff in I; auto. }
  rewrite Q. reflexivity.
Qed.
Lemma lru_index_eq p x y : good p -> 0 <= x < X -> 0 <= y < Y ->
  lru_index p x y = if inside p x y then y / 2 ^ tp_v p * tp_cols p + x / 2 ^ tp_h p else -1.
Proof.
  intros G Hx Hy. unfold lru_index. destruct (inside p x y) eqn:I.
  - rewrite (ru_index_inside p x y false G Hx Hy I). reflexivity.
  - rewrite (ru_index_outside p x y G Hx Hy I). reflexivity.
Qed.

(** last_lru_coded before superblock (x, y) *)
Definition coded_at (p : tplane) (x y : Z) : Z :=
  let r := y / 2 ^ tp_v p in
  if tp_rows p <=? r then tp_rows p * tp_cols p - 1
  else if y mod 2 ^ tp_v p =? 0 then r * tp_cols p - 1 + Z.min (div_ceil x (2 ^ tp_h p)) (tp_cols p)
  else r * tp_cols p + tp_cols p - 1.
Definition first_sb (p : tplane) (x y : Z) : bool := (x mod 2 ^ tp_h p =? 0) && (y mod 2 ^ tp_v p =? 0) && inside p x y.

Lemma coded_step p x y : good p -> 0 <= x < X -> 0 <= y < Y ->
  (negb (lru_index p x y =? -1) && (coded_at p x y <? lru_index p x y)) = first_sb p x y /\
  coded_at p (x + 1) y = if first_sb p x y then lru_index p x y else coded_at p x y.
Proof.
  intros G Hx Hy. rewrite (lru_index_eq p x y G Hx Hy). unfold first_sb, coded_at, inside.
  pose proof (pow2_pos _ (g_h p G)) as Sh. pose proof (pow2_pos _ (g_v p G)) as Sv. pose proof (g_cols p G) as Gc.
  set (a := 2 ^ tp_h p) in *. set (b := 2 ^ tp_v p) in *. set (nc := tp_cols p) in *. set (nr := tp_rows p) in *.
  assert (X0 : 0 <= x / a) by (apply Z.div_pos; lia). assert (Y0 : 0 <= y / b) by (apply Z.div_pos; lia).
  rewrite (div_ceil_succ x a Sh). set (r := y / b) in *. set (q := x / a) in *.
  assert (RC : 0 <= r * nc) by (apply Z.mul_nonneg_nonneg; lia).
  destruct (Z.ltb_spec r nr) as [L|L]; [|
    destruct (Z.leb_spec nr r); [|lia]; rewrite !andb_false_r; split; [reflexivity|reflexivity]].
  destruct (Z.leb_spec nr r); [lia|]. rewrite !andb_true_r.
  destruct (div_ceil_cases x a Sh) as [[M E]|[M E]]; fold q in E; rewrite E.
  - rewrite M. cbn [Z.eqb andb].
    destruct (Z.eqb_spec (y mod b) 0) as [N|N]; cbn [andb].
    + destruct (Z.ltb_spec q nc) as [Q|Q].
      * destruct (Z.eqb_spec (r * nc + q) (-1)); [lia|]. destruct (Z.ltb_spec (r * nc - 1 + Z.min q nc) (r * nc + q)); [|lia].
        split; [reflexivity|lia].
      * cbn [negb Z.eqb andb]. split; [reflexivity|lia].
    + destruct (Z.ltb_spec q nc) as [Q|Q].
      * destruct (Z.eqb_spec (r * nc + q) (-1)); [lia|]. destruct (Z.ltb_spec (r * nc + nc - 1) (r * nc + q)); [lia|].
        split; reflexivity.
      * split; reflexivity.
  - destruct (Z.eqb_spec (x mod a) 0); [contradiction|]. cbn [andb].
    destruct (Z.ltb_spec q nc) as [Q|Q].
    + destruct (Z.eqb_spec (r * nc + q) (-1)); [lia|]. cbn [negb andb].
      destruct (Z.eqb_spec (y mod b) 0) as [N|N].
      * destruct (Z.ltb_spec (r * nc - 1 + Z.min (q + 1) nc) (r * nc + q)); [lia|]. split; reflexivity.
      * destruct (Z.ltb_spec (r * nc + nc - 1) (r * nc + q)); [lia|]. split; reflexivity.
    + split; [reflexivity|]. destruct (Z.eqb_spec (y mod b) 0); reflexivity.
Qed.
Lemma coded_row p y : good p -> 0 <= y < Y -> coded_at p X y = coded_at p 0 (y + 1).
Proof.
  intros G Hy. unfold coded_at.
  pose proof (pow2_pos _ (g_h p G)) as Sh. pose proof (pow2_pos _ (g_v p G)) as Sv. pose proof (g_cols p G) as Gc.
  set (a := 2 ^ tp_h p) in *. set (b := 2 ^ tp_v p) in *. set (nc := tp_cols p) in *. set (nr := tp_rows p) in *.
  assert (Y0 : 0 <= y / b) by (apply Z.div_pos; lia). set (r := y / b) in *.
  pose proof (Z.mod_pos_bound y b Sv) as Mb.
  assert (D0 : div_ceil 0 a = 0) by (apply div_ceil_spec; lia). rewrite D0.
  destruct (div_succ_cases y b Sv) as [(M & E & N)|(M & E & N)]; fold r in E; rewrite E, N.
  - cbn [Z.eqb]. destruct (Z.leb_spec nr r) as [L|L]; destruct (Z.leb_spec nr (r + 1)) as [L'|L']; try lia; try reflexivity.
    + replace nr with (r + 1) by lia. destruct (Z.eqb_spec (y mod b) 0); lia.
    + destruct (Z.eqb_spec (y mod b) 0); lia.
  - destruct (Z.leb_spec nr r) as [L|L]; [reflexivity|].
    destruct (Z.eqb_spec (y mod b + 1) 0); [lia|]. destruct (Z.eqb_spec (y mod b) 0); lia.
Qed.
Lemma coded_start p : good p -> coded_at p 0 0 = -1.
Proof.
  intros G. unfold coded_at. pose proof (pow2_pos _ (g_h p G)) as Sh. pose proof (pow2_pos _ (g_v p G)) as Sv. pose proof (g_cols p G) as Gc. pose proof (g_rows p G) as Gr.
  rewrite Z.div_0_l, Z.mod_0_l by lia. cbn [Z.eqb].
  assert (D0 : div_ceil 0 (2 ^ tp_h p) = 0) by (apply div_ceil_spec; lia). rewrite D0.
  destruct (Z.leb_spec (tp_rows p) 0); [replace (tp_rows p) with 0 by lia|]; lia.
Qed.

(** The last superblock of the last unit *)
Definition end_x (p : tplane) : Z := Z.min (tp_cols p * 2 ^ tp_h p) X - 1.
Definition end_y (p : tplane) : Z := Z.min (tp_rows p * 2 ^ tp_v p) Y - 1.
Definition last_index (p : tplane) : Z := tp_rows p * tp_cols p - 1.

Lemma edge_1d n s N g F x : 0 < s -> 0 <= n <= div_ceil N s -> (N mod s = 0 \/ g + N = F) ->
  0 <= x < N -> x / s < n -> x = Z.min (n * s) N - 1 -> x mod s = s - 1 \/ g + x = F - 1.
Proof.
  intros Hs Hn He Hx Hq E. destruct (Z.le_gt_cases (n * s) N) as [L|L].
  - left. rewrite Z.min_l in E by lia. symmetry. apply Z.mod_unique with (n - 1); lia.
  - rewrite Z.min_r in E by lia. destruct He as [He|He]; [|right; lia]. left.
    pose proof (Z.div_mod N s ltac:(lia)) as D. rewrite He in D. symmetry. apply Z.mod_unique with (N / s - 1); lia.
Qed.
Lemma inside_end p x y : good p -> 0 <= x < X -> 0 <= y < Y -> inside p x y = true -> x <= end_x p /\ y <= end_y p.
Proof.
  intros G Hx Hy I. apply andb_true_iff in I. destruct I as [I1 I2]. apply Z.ltb_lt in I1, I2.
  pose proof (pow2_pos _ (g_h p G)) as Sh. pose proof (pow2_pos _ (g_v p G)) as Sv. unfold end_x, end_y.
  assert (A : forall s z n, 0 < s -> z / s < n -> z < n * s).
  { intros s z n Hs Hz. pose proof (Z.div_mod z s ltac:(lia)). pose proof (Z.mod_pos_bound z s Hs).
    assert (s * (z / s) <= s * (n - 1)) by (apply Z.mul_le_mono_nonneg_l; lia). lia. }
  pose proof (A _ _ _ Sh I1). pose proof (A _ _ _ Sv I2). lia.
Qed.
Lemma end_inside p : good p -> 0 < tp_cols p -> 0 < tp_rows p -> 
  0 <= end_x p < X /\ 0 <= end_y p < Y /\ inside p (end_x p) (end_y p) = true /\
  end_x p / 2 ^ tp_h p = tp_cols p - 1 /\ end_y p / 2 ^ tp_v p = tp_rows p - 1.
Proof.
  intros G Hc Hr. pose proof (pow2_pos _ (g_h p G)) as Sh. pose proof (pow2_pos _ (g_v p G)) as Sv.
  assert (A : forall s n N, 0 < s -> 0 < n <= div_ceil N s -> 0 <= Z.min (n * s) N - 1 < N /\ (Z.min (n * s) N - 1) / s = n - 1).
  { intros s n N Hs Hn. pose proof (div_ceil_bounds N s Hs) as B.
    assert (s * (n - 1) <= s * (div_ceil N s - 1)) by (apply Z.mul_le_mono_nonneg_l; lia).
    assert (0 <= s * (n - 1)) by (apply Z.mul_nonneg_nonneg; lia).
    split; [lia|]. symmetry. apply Z.div_unique with (Z.min (n * s) N - 1 - s * (n - 1)); lia. }
  pose proof (g_cols p G) as Gc. pose proof (g_rows p G) as Gr.
  destruct (A (2 ^ tp_h p) (tp_cols p) X Sh ltac:(lia)) as [A1 A2]. destruct (A (2 ^ tp_v p) (tp_rows p) Y Sv ltac:(lia)) as [B1 B2].
  fold (end_x p) in A1, A2. fold (end_y p) in B1, B2.
  repeat (split; [assumption|]). split; [|split; assumption].
  unfold inside. rewrite A2, B2. apply andb_true_iff. split; apply Z.ltb_lt; lia.
Qed.
Lemma end_last p x y : good p -> 0 <= x < X -> 0 <= y < Y -> inside p x y = true -> x = end_x p -> y = end_y p ->
  last_sb p gx gy x y = true.
Proof.
  intros G Hx Hy I Ex Ey. apply andb_true_iff in I. destruct I as [I1 I2]. apply Z.ltb_lt in I1, I2.
  pose proof (pow2_pos _ (g_h p G)) as Sh. pose proof (pow2_pos _ (g_v p G)) as Sv.
  unfold last_sb. destruct (Z.leb_spec (tp_cols p) (x / 2 ^ tp_h p)); [lia|]. destruct (Z.leb_spec (tp_rows p) (y / 2 ^ tp_v p)); [lia|].
  cbn [negb]. rewrite !andb_true_r. apply andb_true_iff. split; apply orb_true_iff; rewrite !Z.eqb_eq.
  - exact (edge_1d _ _ X gx _ x Sh (g_cols p G) (g_ex p G) Hx I1 Ex).
  - exact (edge_1d _ _ Y gy _ y Sv (g_rows p G) (g_ey p G) Hy I2 Ey).
Qed.

(** last_lru_ready before superblock (x, y): final as soon as the last
    superblock of the last unit has been seen *)
Definition ready_ok (x y : Z) (p : tplane) (r : Z) : Prop :=
  -1 <= r /\ (0 < tp_cols p -> 0 < tp_rows p -> (end_y p < y \/ (end_y p = y /\ end_x p < x)) -> r = last_index p).
Lemma ready_step p x y r : good p -> 0 <= x < X -> 0 <= y < Y -> ready_ok x y p r ->
  ready_ok (x + 1) y p (if now_ready p gx gy x y then lru_index p x y else r).
Proof.
  intros G Hx Hy [R0 R]. unfold now_ready. destruct (inside p x y) eqn:I.
  - rewrite (ru_index_inside p x y false G Hx Hy I), (lru_index_eq p x y G Hx Hy), I.
    destruct (inside_end p x y G Hx Hy I) as [Ex Ey]. pose proof (g_cols p G) as Gc. pose proof (g_rows p G) as Gr.
    destruct (last_sb p gx gy x y) eqn:L.
    + split.
      { pose proof (pow2_pos _ (g_h p G)). pose proof (pow2_pos _ (g_v p G)).
        assert (0 <= x / 2 ^ tp_h p) by (apply Z.div_pos; lia). assert (0 <= y / 2 ^ tp_v p) by (apply Z.div_pos; lia).
        assert (0 <= y / 2 ^ tp_v p * tp_cols p) by (apply Z.mul_nonneg_nonneg; lia). lia. }
      intros Hc Hr H. assert (x = end_x p) by lia. assert (y = end_y p) by lia. subst x y.
      destruct (end_inside p G Hc Hr) as (_ & _ & _ & -> & ->). unfold last_index. lia.
    + split; [exact R0|]. intros Hc Hr H. apply R; try assumption.
      destruct (Z.eq_dec x (end_x p)) as [E1|]; [|lia]. destruct (Z.eq_dec y (end_y p)) as [E2|]; [|lia].
      rewrite (end_last p x y G Hx Hy I E1 E2) in L. discriminate.
  - rewrite (ru_index_outside p x y G Hx Hy I). split; [exact R0|]. intros Hc Hr H. apply R; try assumption.
    destruct (end_inside p G Hc Hr) as (_ & _ & I' & _).
    destruct (Z.eq_dec x (end_x p)) as [E1|]; [|lia]. destruct (Z.eq_dec y (end_y p)) as [E2|]; [|lia].
    subst. rewrite I' in I. discriminate.
Qed.
Lemma index_bound p x y : good p -> 0 <= x < X -> 0 <= y < Y ->
  lru_index p x y = -1 \/ (0 < tp_cols p /\ 0 < tp_rows p /\ 0 <= lru_index p x y <= last_index p).
Proof.
  intros G Hx Hy. rewrite (lru_index_eq p x y G Hx Hy). destruct (inside p x y) eqn:I; [right|now left].
  apply andb_true_iff in I. destruct I as [I1 I2]. apply Z.ltb_lt in I1, I2.
  pose proof (pow2_pos _ (g_h p G)). pose proof (pow2_pos _ (g_v p G)).
  assert (0 <= x / 2 ^ tp_h p) by (apply Z.div_pos; lia). assert (0 <= y / 2 ^ tp_v p) by (apply Z.div_pos; lia).
  assert (0 <= y / 2 ^ tp_v p * tp_cols p) by (apply Z.mul_nonneg_nonneg; lia).
  assert (y / 2 ^ tp_v p * tp_cols p <= (tp_rows p - 1) * tp_cols p) by (apply Z.mul_le_mono_nonneg_r; lia).
  unfold last_index. repeat split; lia.
Qed.
Lemma final_check p x y : good p -> 0 <= x < X -> 0 <= y < Y -> x = X - 1 -> y = Y - 1 -> wants_check p gx gy x y = true.
Proof.
  intros G Hx Hy Ex Ey. unfold wants_check. destruct (inside p x y) eqn:I.
  - rewrite (ru_index_inside p x y false G Hx Hy I). destruct (inside_end p x y G Hx Hy I) as [A B].
    apply end_last; try assumption; unfold end_x, end_y in *; lia.
  - rewrite (ru_index_outside p x y G Hx Hy I). reflexivity.
Qed.
Lemma ready_final p x y r : good p -> 1 <= X -> 1 <= Y -> ready_ok x y p r -> (y = Y - 1 /\ x = X) \/ y = Y ->
  forall x' y', 0 <= x' < X -> 0 <= y' < Y -> lru_index p x' y' <= r.
Proof.
  intros G H1 H2 [R0 R] H x' y' Hx' Hy'. destruct (index_bound p x' y' G Hx' Hy') as [->|(A & B & C)]; [lia|].
  rewrite R; try assumption; [lia|]. unfold end_x, end_y. lia.
Qed.
End Plane.

(** ** All planes *)
Section Queue.
Variables (lrf delayed : bool) (cdef : Z -> Z -> bool) (ps : list tplane) (gx gy X Y : Z).
Hypotheses (HX : 1 <= X) (HY : 1 <= Y) (Hps : ps <> []) (Good : Forall (good gx gy X Y) ps).

(** What must be written at a superblock *)
Fixpoint lrs (pli : Z) (ps : list tplane) (x y : Z) : list lf_event :=
  match ps with
  | [] => []
  | p :: ps =>
      (if first_sb p x y then [EvLrf pli (tp_ux p + x / 2 ^ tp_h p) (tp_uy p + y / 2 ^ tp_v p)] else [])
      ++ lrs (pli + 1) ps x y
  end.
Definition sb_events (xy : Z * Z) : list lf_event :=
  let '(x, y) := xy in
  (if lrf then lrs 0 ps x y else []) ++ EvPre x y :: (if cdef x y then [EvCdef x y; EvPost x y] else []).

Lemma code_planes_ok qs : Forall (good gx gy X Y) qs -> forall pli x y, 0 <= x < X -> 0 <= y < Y ->
  code_planes pli qs (map (fun p => lru_index p x y) qs) (map (fun p => coded_at p x y) qs) x y =
  (map (fun p => coded_at p (x + 1) y) qs, lrs pli qs x y).
Proof.
  induction 1 as [|p qs G _ IH]; intros pli x y Hx Hy; [reflexivity|].
  cbn [map code_planes lrs]. rewrite (IH (pli + 1) x y Hx Hy).
  destruct (coded_step gx gy X Y p x y G Hx Hy) as [-> ->].
  destruct (first_sb p x y) eqn:F; [|reflexivity].
  assert (I : inside p x y = true) by (unfold first_sb in F; apply andb_true_iff in F; destruct F; assumption).
  rewrite (ru_index_inside gx gy X Y p x y true G Hx Hy I). reflexivity.
Qed.

(** Processing a list of entries, whatever the moment *)
Fixpoint run (q : list qentry) (coded : list Z) : list Z * list lf_event :=
  match q with
  | [] => (coded, [])
  | e :: q => let '(c, evs) := code_entry lrf cdef ps coded e in
              let '(c', evs') := run q c in (c', evs ++ evs')
  end.
Lemma run_app q1 : forall q2 coded, run (q1 ++ q2) coded =
  let '(c, e) := run q1 coded in let '(c', e') := run q2 c in (c', e ++ e').
Proof.
  induction q1 as [|a q1 IH]; intros q2 coded; cbn [app run].
  - destruct (run q2 coded); reflexivity.
  - destruct (code_entry lrf cdef ps coded a) as [c evs]. rewrite IH. destruct (run q1 c) as [c1 e1].
    destruct (run q2 c1) as [c2 e2]. now rewrite app_assoc.
Qed.
Lemma drain_run ready q : forall coded q' coded' evs, drain lrf cdef ps ready q coded = (q', coded', evs) ->
  (let '(c, e) := run q' coded' in (c, evs ++ e)) = run q coded /\ (forall e, In e q' -> In e q).
Proof.
  induction q as [|e q IH]; intros coded q' coded' evs E; cbn [drain run] in *.
  - injection E as <- <- <-. cbn. auto.
  - destruct (forallb _ _).
    + destruct (code_entry lrf cdef ps coded e) as [c1 ev1]. destruct (drain lrf cdef ps ready q c1) as [[q2 c2] ev2] eqn:D.
      injection E as <- <- <-. destruct (IH _ _ _ _ D) as [R1 R2]. split.
      * destruct (run q2 c2) as [c3 ev3]. rewrite <- R1. now rewrite app_assoc.
      * intros a Ha. right. auto.
    + injection E as <- <- <-. split; [|auto]. cbn [run app].
      destruct (code_entry lrf cdef ps coded e) as [c1 ev1]. destruct (run q c1); reflexivity.
Qed.
Lemma drain_all ready q : (forall e, In e q -> forallb (fun ir => fst ir <=? snd ir) (combine (q_idx e) ready) = true) ->
  forall coded, exists c evs, drain lrf cdef ps ready q coded = ([], c, evs).
Proof.
  induction q as [|e q IH]; intros H coded; cbn [drain]; [eauto|].
  rewrite (H e (or_introl eq_refl)). destruct (code_entry lrf cdef ps coded e) as [c1 ev1].
  destruct (IH (fun a Ha => H a (or_intror Ha)) c1) as (c & evs & ->). eauto.
Qed.

Definition entry_ok (e : qentry) : Prop :=
  0 <= q_x e < X /\ 0 <= q_y e < Y /\ q_idx e = map (fun p => lru_index p (q_x e) (q_y e)) ps.

(** Events of the superblocks before (x, y) *)
Definition before (x y : Z) : list lf_event :=
  flat_map sb_events (raster X y) ++ flat_map sb_events (map (fun x => (x, y)) (zrange 0 x)).
Lemma before_step x y : 0 <= x -> before (x + 1) y = before x y ++ sb_events (x, y).
Proof.
  intros Hx. unfold before. rewrite zrange_snoc, map_app, flat_map_app by lia. cbn [map flat_map].
  rewrite Z.add_0_l, app_nil_r, app_assoc. reflexivity.
Qed.
Lemma before_row y : 0 <= y -> before X y = before 0 (y + 1).
Proof.
  intros Hy. unfold before at 2. rewrite zrange_0. cbn [map flat_map]. rewrite app_nil_r.
  unfold raster. rewrite zrange_snoc, flat_map_app by lia. cbn [flat_map]. rewrite app_nil_r, Z.add_0_l.
  rewrite flat_map_app. reflexivity.
Qed.

Record inv (x y : Z) (s : lfq) : Prop := {
  i_q : forall e, In e (lf_q s) -> entry_ok e;
  i_ready : Forall2 (ready_ok X Y x y) ps (lf_ready s);
  i_out : exists c evs, run (lf_q s) (lf_coded s) = (c, evs) /\ lf_out s ++ evs = before x y /\
          (lrf = true -> c = map (fun p => coded_at p x y) ps);
  i_end : delayed = false -> (y = Y - 1 /\ x = X) \/ y = Y -> lf_q s = []
}.

Lemma ready_all x y ready : Forall2 (ready_ok X Y x y) ps ready -> (y = Y - 1 /\ x = X) \/ y = Y ->
  forall e, entry_ok e -> forallb (fun ir => fst ir <=? snd ir) (combine (q_idx e) ready) = true.
Proof.
  intros R H e (Hx & Hy & ->). revert R Good. generalize ps, ready. clear Hps ready.
  intros l ready R. induction R as [|p r l ready R1 _ IH]; intros GG; [reflexivity|].
  inversion GG as [|p' l' G GG']; subst p' l'. cbn [map combine forallb fst snd]. apply andb_true_iff. split; [|exact (IH GG')].
  apply Z.leb_le. exact (ready_final gx gy X Y p x y r G HX HY R1 H _ _ Hx Hy).
Qed.

Lemma check_inv x y s : inv x y s -> inv x y (check_lf_queue lrf cdef ps s) /\
  ((y = Y - 1 /\ x = X) \/ y = Y -> lf_q (check_lf_queue lrf cdef ps s) = []).
Proof.
  intros [Q R O E]. unfold check_lf_queue.
  destruct (drain lrf cdef ps (lf_ready s) (lf_q s) (lf_coded s)) as [[q' c'] evs'] eqn:D.
  destruct (drain_run _ _ _ _ _ _ D) as [Run Sub].
  assert (Em : (y = Y - 1 /\ x = X) \/ y = Y -> q' = []).
  { intros H. destruct (drain_all (lf_ready s) (lf_q s)) with (coded := lf_coded s) as (c & ev & D').
    - intros e He. exact (ready_all x y _ R H e (Q e He)).
    - rewrite D in D'. now injection D' as ->. }
  split; [|exact Em]. constructor; cbn [lf_q lf_ready lf_coded lf_out].
  - intros e He. apply Q, Sub, He.
  - exact R.
  - destruct O as (c & evs & RO & EO & CO). rewrite RO in Run.
    destruct (run q' c') as [c2 e2]. injection Run as -> <-. exists c, e2. split; [reflexivity|]. split; [|exact CO].
    rewrite <- app_assoc. exact EO.
  - intros _. exact Em.
Qed.

Lemma step_inv x y s : 0 <= x < X -> 0 <= y < Y -> inv x y s -> inv (x + 1) y (lf_step lrf delayed cdef ps gx gy s (x, y)).
Proof.
  intros Hx Hy [Q R O E]. cbn [lf_step].
  set (s' := {| lf_q := _; lf_ready := _; lf_coded := _; lf_out := _ |}).
  assert (I' : (forall e, In e (lf_q s') -> entry_ok e) /\ Forall2 (ready_ok X Y (x + 1) y) ps (lf_ready s') /\
    exists c evs, run (lf_q s') (lf_coded s') = (c, evs) /\ lf_out s' ++ evs = before (x + 1) y /\
          (lrf = true -> c = map (fun p => coded_at p (x + 1) y) ps)).
  { split; [|split].
    - intros e He. unfold s' in He. cbn [lf_q] in He. apply in_app_or in He. destruct He as [He|[<-|[]]]; [auto|].
      unfold entry_ok. cbn [q_x q_y q_idx]. auto.
    - unfold s'. cbn [lf_ready]. clear - R Good Hx Hy. revert Good. induction R as [|p r l rs R1 _ IH]; intros GG; [constructor|].
      inversion GG as [|p' l' G GG']; subst p' l'. cbn [combine map fst snd]. constructor; [|exact (IH GG')].
      exact (ready_step gx gy X Y p x y r G Hx Hy R1).
    - destruct O as (c & evs & RO & EO & CO). unfold s'. cbn [lf_q lf_coded lf_out].
      rewrite run_app, RO. cbn [run]. unfold code_entry. cbn [q_x q_y q_idx].
      destruct lrf eqn:LR.
      + rewrite (CO eq_refl). rewrite (code_planes_ok ps Good 0 x y Hx Hy). eexists. eexists. split; [reflexivity|]. split; [|reflexivity].
        rewrite app_nil_r, app_assoc, EO, before_step by lia. unfold sb_events. rewrite LR. reflexivity.
      + eexists. eexists. split; [reflexivity|]. split; [|discriminate].
        rewrite app_nil_r, app_assoc, EO, before_step by lia. unfold sb_events. rewrite LR. reflexivity. }
  destruct I' as (Q' & R' & O').
  destruct (existsb (fun p => wants_check p gx gy x y) ps && negb delayed) eqn:B.
  - unfold check_lf_queue.
    destruct (drain lrf cdef ps (lf_ready s') (lf_q s') (lf_coded s')) as [[q' c'] evs'] eqn:D.
    destruct (drain_run _ _ _ _ _ _ D) as [Run Sub].
    constructor; cbn [lf_q lf_ready lf_coded lf_out].
    + intros e He. apply Q', Sub, He.
    + exact R'.
    + destruct O' as (c & evs & RO & EO & CO). rewrite RO in Run.
      destruct (run q' c') as [c2 e2]. injection Run as -> <-. exists c, e2. split; [reflexivity|]. split; [|exact CO].
      rewrite <- app_assoc. exact EO.
    + intros _ H. destruct (drain_all (lf_ready s') (lf_q s')) with (coded := lf_coded s') as (c & ev & D').
      * intros e He. exact (ready_all (x + 1) y _ R' H e (Q' e He)).
      * rewrite D in D'. now injection D' as ->.
  - constructor; try assumption. intros Dl H. exfalso. rewrite Dl in B. cbn [negb] in B. rewrite andb_true_r in B.
    destruct ps as [|p l]; [contradiction|]. cbn [existsb] in B. apply orb_false_iff in B. destruct B as [B _].
    inversion Good as [|p' l' G GG']; subst p' l'.
    rewrite (final_check gx gy X Y p x y G Hx Hy) in B; [discriminate|lia|lia].
Qed.

Lemma row_inv y s : 0 <= y < Y -> inv X y s -> inv 0 (y + 1) s.
Proof.
  intros Hy [Q R O E]. constructor; [exact Q| | |].
  - clear - R HX Good. revert Good. induction R as [|p r l rs R1 _ IH]; intros GG; [constructor|].
    inversion GG as [|p' l' G GG']; subst p' l'. constructor; [|exact (IH GG')].
    destruct R1 as [R0 R1]. split; [exact R0|]. intros Hc Hr H. apply R1; try assumption.
    destruct (end_inside gx gy X Y p G Hc Hr) as (A & B & _). lia.
  - destruct O as (c & evs & RO & EO & CO). exists c, evs. split; [exact RO|]. split; [rewrite <- before_row by lia; exact EO|].
    intros LR. rewrite (CO LR). clear - Good Hy. induction Good as [|p l G GG IH]; [reflexivity|]. cbn [map].
    rewrite (coded_row gx gy X Y p y G Hy). f_equal. exact (IH GG).
  - intros Dl H. apply (E Dl). left. lia.
Qed.

Theorem encode_tile_ok : encode_tile lrf delayed cdef ps gx gy X Y = Some (flat_map sb_events (raster X Y)).
Proof.
  unfold encode_tile. set (s0 := {| lf_q := []; lf_ready := _; lf_coded := _; lf_out := _ |}).
  assert (I0 : inv 0 0 s0).
  { constructor; unfold s0; cbn [lf_q lf_ready lf_coded lf_out].
    - intros e [].
    - clear - Good HX HY. induction Good as [|p l G GG IH]; [constructor|]. cbn [map]. constructor; [|exact (IH GG)].
      split; [lia|]. intros Hc Hr H. exfalso. destruct (end_inside gx gy X Y p G Hc Hr) as (A & B & _). lia.
    - eexists. eexists. split; [reflexivity|]. split; [reflexivity|]. intros _.
      clear - Good. induction Good as [|p l G GG IH]; [reflexivity|]. cbn [map]. rewrite (coded_start gx gy X Y p G). f_equal. exact (IH GG).
    - reflexivity. }
  pose proof (raster_ind (lf_step lrf delayed cdef ps gx gy) X Y inv s0 ltac:(lia) ltac:(lia) I0 step_inv row_inv) as F.
  set (s := fold_left _ _ _) in *.
  assert (Fin : forall s, inv 0 Y s -> lf_q s = [] -> lf_out s = flat_map sb_events (raster X Y)).
  { intros s1 J Eq. destruct (i_out _ _ _ J) as (c & evs & RO & EO & _). rewrite Eq in RO. cbn [run] in RO. injection RO as <- <-.
    rewrite app_nil_r in EO. rewrite EO. unfold before. rewrite zrange_0. cbn [map flat_map]. apply app_nil_r. }
  destruct delayed eqn:Dl.
  - destruct (check_inv 0 Y s F) as [F' Em]. specialize (Em (or_intror eq_refl)). rewrite Em. f_equal. exact (Fin _ F' Em).
  - pose proof (i_end _ _ _ F Dl (or_intror eq_refl)) as Em. rewrite Em. f_equal. exact (Fin _ F Em).
Qed.
End Queue.
