(** Restoration units and tiles. *)
From Verif Require Import Base Bits Tile_model Tile_spec Tile_proof Tile_main Lrf_model Lrf_spec Lrf_queue.

(** ** Trailing zeros and powers of two *)
Lemma pos_tz_spec p : 0 <= pos_tz p /\ Z.pos p mod 2 ^ pos_tz p = 0.
Proof.
  induction p as [p IH|p IH|]; cbn [pos_tz].
  - rewrite Z.pow_0_r. split; [lia|apply Z.mod_1_r].
  - destruct IH as [I1 I2]. split; [lia|]. rewrite Z.pow_add_r by lia. change (2 ^ 1) with 2.
    rewrite Pos2Z.inj_xO, (Z.mul_comm 2). rewrite Z.mul_mod_distr_r by (pose proof (pow2_pos _ I1); lia).
    rewrite I2. reflexivity.
  - split; [lia|apply Z.mod_1_r].
Qed.
Lemma tz_spec n : 1 <= n -> 0 <= tz n /\ n mod 2 ^ tz n = 0.
Proof. intros Hn. destruct n as [|p|p]; try lia. apply pos_tz_spec. Qed.
Lemma pow_divides a b n : 0 <= a <= b -> n mod 2 ^ b = 0 -> n mod 2 ^ a = 0.
Proof.
  intros Hab H. pose proof (pow2_pos a ltac:(lia)) as Pa. pose proof (pow2_pos b ltac:(lia)) as Pb.
  apply Z.mod_divide in H; [|lia]. apply Z.mod_divide; [lia|]. destruct H as (q & ->).
  exists (q * 2 ^ (b - a)). rewrite <- Z.mul_assoc, <- Z.pow_add_r by lia. do 2 f_equal. lia.
Qed.
Lemma tz_even n : 1 <= n -> n mod 2 = 0 -> 1 <= tz n.
Proof.
  intros Hn E. destruct n as [|p|p]; try lia. destruct p as [p|p|]; cbn [tz pos_tz].
  - exfalso. rewrite Pos2Z.inj_xI in E. replace (2 * Z.pos p + 1) with (1 + Z.pos p * 2) in E by lia.
    rewrite Z.mod_add in E by lia. discriminate.
  - pose proof (pos_tz_spec p). lia.
  - discriminate.
Qed.
Lemma min_pow a b : 0 <= a -> 0 <= b -> Z.min (2 ^ a) (2 ^ b) = 2 ^ Z.min a b.
Proof.
  intros Ha Hb. destruct (Z.le_ge_cases a b) as [L|L].
  - rewrite (Z.min_l a b L), Z.min_l by (apply Z.pow_le_mono_r; lia). reflexivity.
  - rewrite (Z.min_r a b L), Z.min_r by (apply Z.pow_le_mono_r; lia). reflexivity.
Qed.

(** ** The layout *)
Lemma lrf_shifts_ok large q w h xdec ydec : (large = true -> 1 < w /\ 1 < h) ->
  0 <= xdec <= 1 -> 0 <= ydec <= 1 ->
  exists sy k, lrf_shifts large q w h xdec ydec = Some (sy, sy + k) /\ 0 <= sy <= 2 /\ 0 <= k <= 1 /\
    (k = 1 -> xdec = 1 /\ ydec = 1) /\ (sy = 2 -> xdec = 1 -> ydec = 1 -> k = 1).
Proof.
  intros Hl Hx Hy. unfold lrf_shifts.
  assert (D : ((0 <? xdec) && (0 <? ydec) = true /\ xdec = 1 /\ ydec = 1) \/
              ((0 <? xdec) && (0 <? ydec) = false /\ ~ (xdec = 1 /\ ydec = 1))).
  { destruct (Z.ltb_spec 0 xdec), (Z.ltb_spec 0 ydec); cbn [andb]; [left|right|right|right]; (split; [reflexivity|lia]). }
  destruct D as [(-> & E1 & E2)|(-> & E)].
  - destruct large.
    + destruct (Hl eq_refl). destruct (Z.ltb_spec 1 w); [|lia]. destruct (Z.ltb_spec 1 h); [|lia]. cbn [andb negb]. cbv zeta.
      change (0 <? 1) with true. cbv iota.
      destruct (200 <? q); [|destruct (160 <? q)].
      * change (0 =? 2) with false. cbv iota. destruct (_ && _); eexists; eexists; (split; [reflexivity|]); lia.
      * change (1 =? 2) with false. cbv iota. destruct (_ && _); eexists; eexists; (split; [reflexivity|]); lia.
      * change (2 =? 2) with true. cbv iota. eexists; eexists; (split; [reflexivity|]); lia.
    + eexists; eexists; (split; [reflexivity|]); lia.
  - destruct large.
    + destruct (Hl eq_refl). destruct (Z.ltb_spec 1 w); [|lia]. destruct (Z.ltb_spec 1 h); [|lia]. cbn [andb negb]. cbv zeta.
      change (0 <? 0) with false. cbv iota.
      destruct (200 <? q); [|destruct (160 <? q)]; eexists; eexists; (split; [reflexivity|]); lia.
    + eexists; eexists; (split; [reflexivity|]); lia.
Qed.

Record plane_ok (w h : Z) (t : tiling) (dx dy : Z) (p : lrf_plane) : Prop := {
  po_h : 0 <= lp_h_shift p; po_v : 0 <= lp_v_shift p;
  po_uh : lp_unit p = 2 ^ (6 - dx + lp_h_shift p);
  po_uv : lp_unit p = 2 ^ (6 - dy + lp_v_shift p);
  po_cols : lp_cols p = s_count_units (lp_unit p) (s_round2 w dx);
  po_rows : lp_rows p = s_count_units (lp_unit p) (s_round2 h dy);
  po_tw : t_tw t mod 2 ^ lp_h_shift p = 0 \/ t_cols t = 1;
  po_th : t_th t mod 2 ^ lp_v_shift p = 0 \/ t_rows t = 1
}.

Lemma plane_intro w h t dx dy e : 6 - dx <= e -> 6 - dy <= e ->
  (t_tw t mod 2 ^ (e - (6 - dx)) = 0 \/ t_cols t = 1) -> (t_th t mod 2 ^ (e - (6 - dy)) = 0 \/ t_rows t = 1) ->
  plane_ok w h t dx dy {| lp_unit := 2 ^ e; lp_h_shift := e - (6 - dx); lp_v_shift := e - (6 - dy);
             lp_cols := s_count_units (2 ^ e) (s_round2 w dx); lp_rows := s_count_units (2 ^ e) (s_round2 h dy) |}.
Proof.
  intros H1 H2 H3 H4. constructor; cbn [lp_unit lp_h_shift lp_v_shift lp_cols lp_rows].
  - lia.
  - lia.
  - f_equal. lia.
  - f_equal. lia.
  - reflexivity.
  - reflexivity.
  - exact H3.
  - exact H4.
Qed.

Lemma round2_eq n d : 0 <= d <= 1 -> (n + 2 ^ d / 2) / 2 ^ d = s_round2 n d.
Proof.
  intros Hd. unfold s_round2. assert (d = 0 \/ d = 1) as [-> | ->] by lia.
  - change (2 ^ 0) with 1. change (1 / 2) with 0. rewrite Z.add_0_r, Z.div_1_r. reflexivity.
  - reflexivity.
Qed.

(** exponents of the two unit sizes *)
Definition exps (a b xdec ydec zh zv : Z) (multi : bool) : Z * Z :=
  let ey := if multi then Z.min a (6 + Z.min zh zv) else a in
  let eu := if multi then Z.min b (Z.min (6 - xdec + zh) (6 - ydec + zv)) else b in
  if (ydec =? 0) && negb (ey =? eu) then (Z.min eu ey, Z.min eu ey) else (ey, eu).

Lemma exps_bounds a b xdec ydec zh zv multi : 6 <= a <= 8 -> a - 1 <= b <= a -> 0 <= zh -> 0 <= zv ->
  0 <= xdec <= 1 -> 0 <= ydec <= xdec -> (b = a - 1 -> xdec = 1 /\ ydec = 1) -> 
  (xdec = 1 -> ydec = 0 -> 1 <= zh) ->
  let ey := fst (exps a b xdec ydec zh zv multi) in let eu := snd (exps a b xdec ydec zh zv multi) in
  6 <= ey <= 8 /\ 6 - xdec <= eu /\ 6 - ydec <= eu /\ (eu = ey \/ (xdec = 1 /\ ydec = 1 /\ eu + 1 = ey)) /\
  (multi = true -> ey - 6 <= zh /\ ey - 6 <= zv /\ eu - (6 - xdec) <= zh /\ eu - (6 - ydec) <= zv).
Proof.
  intros Ha Hb Hzh Hzv Hx Hy Kb Ev. cbv zeta. unfold exps. destruct multi.
  - assert (C : (xdec = 0 /\ ydec = 0) \/ (xdec = 1 /\ ydec = 0) \/ (xdec = 1 /\ ydec = 1)) by lia.
    destruct C as [[-> ->]|[[-> ->]|[-> ->]]].
    + assert (b = a) by lia. subst b. replace (Z.min (6 - 0 + zh) (6 - 0 + zv)) with (6 + Z.min zh zv) by lia.
      rewrite !Z.eqb_refl. cbn [negb andb fst snd]. lia.
    + assert (b = a) by lia. specialize (Ev eq_refl eq_refl). subst b. change (0 =? 0) with true. cbn [andb].
      set (e1 := Z.min a (6 + Z.min zh zv)). set (e2 := Z.min a (Z.min (6 - 1 + zh) (6 - 0 + zv))).
      destruct (Z.eqb_spec e1 e2); cbn [negb fst snd]; subst e1 e2; lia.
    + change (1 =? 0) with false. cbn [andb fst snd]. lia.
  - destruct ((ydec =? 0) && negb (a =? b)) eqn:E; cbn [fst snd].
    + apply andb_true_iff in E. destruct E as [E1 E2]. apply Z.eqb_eq in E1. assert (b = a) by lia. subst b.
      rewrite Z.eqb_refl in E2. discriminate.
    + clear E. assert (D : b = a \/ (b = a - 1 /\ xdec = 1 /\ ydec = 1)) by lia. clear Kb Ev.
      split; [lia|]. split; [lia|]. split; [lia|]. split; [lia|discriminate].
Qed.

Lemma lrf_layout_eq large q w h xdec ydec t sy k : lrf_shifts large q w h xdec ydec = Some (sy, sy + k) ->
  0 <= sy <= 2 -> 0 <= k <= 1 -> 0 <= xdec <= 1 -> 0 <= ydec <= 1 -> 1 <= t_tw t -> 1 <= t_th t ->
  let '(ey, eu) := exps (8 - sy) (8 - (sy + k)) xdec ydec (tz (t_tw t)) (tz (t_th t)) ((1 <? t_cols t) || (1 <? t_rows t)) in
  6 <= ey -> 6 - xdec <= eu -> 6 - ydec <= eu ->
  lrf_layout large q w h xdec ydec t =
    Some ({| lp_unit := 2 ^ ey; lp_h_shift := ey - 6; lp_v_shift := ey - 6;
             lp_cols := s_count_units (2 ^ ey) (s_round2 w 0); lp_rows := s_count_units (2 ^ ey) (s_round2 h 0) |},
          {| lp_unit := 2 ^ eu; lp_h_shift := eu - (6 - xdec); lp_v_shift := eu - (6 - ydec);
             lp_cols := s_count_units (2 ^ eu) (s_round2 w xdec); lp_rows := s_count_units (2 ^ eu) (s_round2 h ydec) |}).
Proof.
  intros E Hsy Hk Hx Hy Ht1 Ht2. unfold exps.
  destruct (tz_spec _ Ht1) as [Z1 _]. destruct (tz_spec _ Ht2) as [Z2 _].
  set (zh := tz (t_tw t)) in *. set (zv := tz (t_th t)) in *.
  set (multi := (1 <? t_cols t) || (1 <? t_rows t)).
  set (ey := if multi then Z.min (8 - sy) (6 + Z.min zh zv) else 8 - sy).
  set (eu := if multi then Z.min (8 - (sy + k)) (Z.min (6 - xdec + zh) (6 - ydec + zv)) else 8 - (sy + k)).
  assert (P1 : (if multi then Z.min (2 ^ (8 - sy)) (2 ^ (6 + Z.min zh zv)) else 2 ^ (8 - sy)) = 2 ^ ey).
  { unfold ey. destruct multi; [apply min_pow; lia|reflexivity]. }
  assert (P2 : (if multi then Z.min (2 ^ (8 - (sy + k))) (Z.min (2 ^ (6 - xdec + zh)) (2 ^ (6 - ydec + zv))) else 2 ^ (8 - (sy + k))) = 2 ^ eu).
  { unfold eu. destruct multi; [rewrite !min_pow by lia; reflexivity|reflexivity]. }
  assert (N1 : 0 <= ey) by (unfold ey; destruct multi; lia). assert (N2 : 0 <= eu) by (unfold eu; destruct multi; lia).
  assert (Eqb : (2 ^ ey =? 2 ^ eu) = (ey =? eu)).
  { destruct (Z.eqb_spec ey eu) as [->|N]; [apply Z.eqb_refl|]. apply Z.eqb_neq. intros H. apply N.
    apply (Z.pow_inj_r 2); lia. }
  assert (Fin : forall fy fu, 6 <= fy -> 6 - xdec <= fu -> 6 - ydec <= fu ->
    fy = (if (ydec =? 0) && negb (ey =? eu) then Z.min eu ey else ey) ->
    fu = (if (ydec =? 0) && negb (ey =? eu) then Z.min eu ey else eu) ->
    lrf_layout large q w h xdec ydec t =
    Some ({| lp_unit := 2 ^ fy; lp_h_shift := fy - 6; lp_v_shift := fy - 6;
             lp_cols := s_count_units (2 ^ fy) (s_round2 w 0); lp_rows := s_count_units (2 ^ fy) (s_round2 h 0) |},
          {| lp_unit := 2 ^ fu; lp_h_shift := fu - (6 - xdec); lp_v_shift := fu - (6 - ydec);
             lp_cols := s_count_units (2 ^ fu) (s_round2 w xdec); lp_rows := s_count_units (2 ^ fu) (s_round2 h ydec) |})).
  { intros fy fu H1 H2 H3 Ef Eg. unfold lrf_layout. rewrite E. cbn [bindo fst snd]. cbv zeta.
    fold zh. fold zv. fold multi. rewrite P1, P2, Eqb.
    assert (Q1 : (if (ydec =? 0) && negb (ey =? eu) then Z.min (2 ^ eu) (2 ^ ey) else 2 ^ ey) = 2 ^ fy).
    { rewrite Ef. destruct ((ydec =? 0) && negb (ey =? eu)); [apply min_pow; assumption|reflexivity]. }
    assert (Q2 : (if (ydec =? 0) && negb (ey =? eu) then 2 ^ fy else 2 ^ eu) = 2 ^ fu).
    { rewrite Ef, Eg. destruct ((ydec =? 0) && negb (ey =? eu)); reflexivity. }
    rewrite Q1, Q2, !Z.log2_pow2 by lia.
    destruct (Z.ltb_spec fy 6); [lia|]. destruct (Z.ltb_spec fu (6 - xdec)); [lia|]. destruct (Z.ltb_spec fu (6 - ydec)); [lia|].
    cbn [orb]. rewrite (round2_eq w xdec), (round2_eq h ydec) by lia. reflexivity. }
  destruct ((ydec =? 0) && negb (ey =? eu)) eqn:T; intros H1 H2 H3; apply Fin; try assumption; reflexivity.
Qed.

Lemma layout_ok large q w h xdec ydec is_422 t sbc sbr : tiling_facts w h is_422 t sbc sbr ->
  0 <= xdec <= 1 -> 0 <= ydec <= xdec -> is_422 = (xdec =? 1) && (ydec =? 0) -> (large = true -> 1 < w /\ 1 < h) ->
  exists y uv, lrf_layout large q w h xdec ydec t = Some (y, uv) /\
    plane_ok w h t 0 0 y /\ plane_ok w h t xdec ydec uv /\
    64 <= lp_unit y <= 256 /\ (lp_unit uv = lp_unit y \/ (xdec = 1 /\ ydec = 1 /\ 2 * lp_unit uv = lp_unit y)).
Proof.
  intros F Hx Hy E4 Hl. pose proof (tf_tw _ _ _ _ _ _ F) as Tw. pose proof (tf_th _ _ _ _ _ _ F) as Th.
  destruct (lrf_shifts_ok large q w h xdec ydec Hl Hx ltac:(lia)) as (sy & k & Es & Hsy & Hk & K1 & K2).
  pose proof (lrf_layout_eq large q w h xdec ydec t sy k Es Hsy Hk Hx ltac:(lia) ltac:(lia) ltac:(lia)) as L.
  destruct (tz_spec (t_tw t) ltac:(lia)) as [Z1 D1]. destruct (tz_spec (t_th t) ltac:(lia)) as [Z2 D2].
  pose proof (cols_pos _ _ _ _ _ _ F) as Cp. pose proof (rows_pos _ _ _ _ _ _ F) as Rp.
  set (zh := tz (t_tw t)) in *. set (zv := tz (t_th t)) in *.
  assert (Ev : xdec = 1 -> ydec = 0 -> 1 <= zh).
  { intros -> ->. apply tz_even; [lia|]. apply (tf_tw_even _ _ _ _ _ _ F). exact E4. }
  set (multi := (1 <? t_cols t) || (1 <? t_rows t)) in *.
  destruct (exps (8 - sy) (8 - (sy + k)) xdec ydec zh zv multi) as [ey eu] eqn:Ex.
  assert (B : 6 <= ey <= 8 /\ 6 - xdec <= eu /\ 6 - ydec <= eu /\ (eu = ey \/ (xdec = 1 /\ ydec = 1 /\ eu + 1 = ey)) /\
    (multi = true -> ey - 6 <= zh /\ ey - 6 <= zv /\ eu - (6 - xdec) <= zh /\ eu - (6 - ydec) <= zv)).
  { pose proof (exps_bounds (8 - sy) (8 - (sy + k)) xdec ydec zh zv multi ltac:(lia)) as X. rewrite Ex in X. cbn [fst snd] in X.
    apply X; clear X; try assumption; clear - Hx Hy Hsy Hk K1 K2; lia. }
  destruct B as (B1 & B2 & B3 & B4 & B5). specialize (L ltac:(lia) B2 B3).
  assert (Tw' : forall s, 0 <= s -> (multi = true -> s <= zh) -> t_tw t mod 2 ^ s = 0 \/ t_cols t = 1).
  { intros s Hs Hz. destruct multi eqn:M.
    - left. apply (pow_divides s zh); [specialize (Hz eq_refl); lia|exact D1].
    - right. unfold multi in M. apply orb_false_iff in M. destruct M as [M _]. apply Z.ltb_ge in M. lia. }
  assert (Th' : forall s, 0 <= s -> (multi = true -> s <= zv) -> t_th t mod 2 ^ s = 0 \/ t_rows t = 1).
  { intros s Hs Hz. destruct multi eqn:M.
    - left. apply (pow_divides s zv); [specialize (Hz eq_refl); lia|exact D2].
    - right. unfold multi in M. apply orb_false_iff in M. destruct M as [_ M]. apply Z.ltb_ge in M. lia. }
  eexists. eexists. split; [exact L|]. clear L. split; [|split; [|split]].
  - apply (plane_intro w h t 0 0 ey); [lia|lia| |].
    + apply Tw'; [lia|]. intros M. destruct (B5 M) as (H & _). exact H.
    + apply Th'; [lia|]. intros M. destruct (B5 M) as (_ & H & _). exact H.
  - apply (plane_intro w h t xdec ydec eu); [exact B2|exact B3| |].
    + apply Tw'; [lia|]. intros M. destruct (B5 M) as (_ & _ & H & _). exact H.
    + apply Th'; [lia|]. intros M. destruct (B5 M) as (_ & _ & _ & H). exact H.
  - cbn [lp_unit]. assert (2 ^ 6 <= 2 ^ ey <= 2 ^ 8) by (split; apply Z.pow_le_mono_r; lia). exact H.
  - cbn [lp_unit]. destruct B4 as [->|(A1 & A2 & A3)]; [now left|]. right. split; [exact A1|]. split; [exact A2|].
    rewrite <- A3. rewrite Z.pow_add_r by (clear - B1 A3; lia). change (2 ^ 1) with 2. apply Z.mul_comm.
Qed.

Lemma div_ceil_mul m a b : 0 < m -> 0 < b -> div_ceil (m * a) (m * b) = div_ceil a b.
Proof.
  intros Hm Hb. pose proof (div_ceil_bounds a b Hb) as B. set (q := div_ceil a b) in *. clearbody q.
  apply div_ceil_spec; [apply Z.mul_pos_pos; assumption|].
  rewrite <- !Z.mul_assoc. split; [apply Z.mul_lt_mono_pos_l; lia|apply Z.mul_le_mono_nonneg_l; lia].
Qed.

Lemma div_lt_ceil x n S : 0 < S -> 0 <= x < n -> x / S < div_ceil n S.
Proof.
  intros HS Hx. apply Z.div_lt_upper_bound; [exact HS|]. pose proof (div_ceil_bounds n S HS). lia.
Qed.
(** ** One dimension *)
Section Dim.
Variables (w d s T : Z).
Hypotheses (Hw : 1 <= w) (Hd : 0 <= d <= 1) (Hs : 0 <= s) (HT : 1 <= T).
Let n := div_ceil w 64.
Let S := 2 ^ s.
Let u := 2 ^ (6 - d + s).
Let rs := s_count_units u (s_round2 w d).
Hypothesis Hdiv : T mod S = 0 \/ div_ceil n T = 1.

Lemma S_pos : 1 <= S.
Proof. unfold S. pose proof (pow2_pos s Hs). lia. Qed.
Lemma mi_pos : 1 <= 4 / 2 ^ d /\ u = 16 * (4 / 2 ^ d) * S.
Proof.
  unfold u, S. rewrite Z.pow_add_r by lia. assert (d = 0 \/ d = 1) as [-> | ->] by lia.
  - change (4 / 2 ^ 0) with 4. change (2 ^ (6 - 0)) with 64. lia.
  - change (4 / 2 ^ 1) with 2. change (2 ^ (6 - 1)) with 32. lia.
Qed.
Lemma n_pos : 1 <= n.
Proof. unfold n. apply div_ceil_pos; lia. Qed.
Lemma rs_bounds : 1 <= rs <= div_ceil n S /\ div_ceil n S <= rs + 1.
Proof.
  pose proof S_pos as HS. destruct mi_pos as [Hm Hu].
  assert (Wp : 1 <= s_round2 w d /\ div_ceil n S = div_ceil (s_round2 w d) u).
  { unfold n. rewrite div_ceil_div_ceil by lia. unfold s_round2. rewrite Hu.
    assert (d = 0 \/ d = 1) as [-> | ->] by lia.
    - change (4 / 2 ^ 0) with 4. cbn [Z.eqb]. split; [lia|]. f_equal.
    - change (4 / 2 ^ 1) with 2. change (1 =? 0) with false. cbv iota. change (2 ^ (1 - 1)) with 1. change (2 ^ 1) with 2.
      replace ((w + 1) / 2) with (div_ceil w 2) by (unfold div_ceil; f_equal; lia).
      split; [apply div_ceil_pos; lia|]. rewrite div_ceil_div_ceil by lia. f_equal. lia. }
  destruct Wp as [W1 ->]. set (W := s_round2 w d) in *. assert (U1 : 1 <= u) by lia.
  assert (E2 : u = 2 * (u / 2)).
  { rewrite Hu. replace (16 * (4 / 2 ^ d) * S) with (8 * (4 / 2 ^ d) * S * 2) by ring. rewrite Z.div_mul by lia. ring. }
  unfold rs, s_count_units. fold W. pose proof (div_ceil_bounds W u ltac:(lia)) as B. pose proof (div_ceil_pos W u ltac:(lia) ltac:(lia)) as Np.
  set (N := div_ceil W u) in *.
  assert ((W + u / 2) / u <= N).
  { apply Z.lt_succ_r. apply Z.div_lt_upper_bound; lia. }
  assert (N - 1 <= (W + u / 2) / u) by (apply Z.div_le_lower_bound; lia).
  lia.
Qed.

Variable c : Z.
Hypothesis Hc : 0 <= c < div_ceil n T.
Let pos := c * T.
Let len := Z.min T (n - pos).

Lemma pos_len : 0 <= pos /\ 1 <= len /\ pos + len <= n /\ (len = T \/ pos + len = n).
Proof. unfold len. pose proof (piece_start T n c ltac:(lia) Hc) as P. fold pos in P. lia. Qed.
Lemma pos_mod : pos mod S = 0.
Proof.
  pose proof S_pos. destruct Hdiv as [D|D].
  - unfold pos. rewrite Z.mul_mod, D, Z.mul_0_r by lia. apply Z.mod_0_l. lia.
  - rewrite D in Hc. unfold pos. replace c with 0 by lia. apply Z.mod_0_l. lia.
Qed.
Lemma len_mod : len mod S = 0 \/ pos + len = n.
Proof.
  pose proof S_pos. destruct pos_len as (P0 & P1 & P2 & [P3|P3]); [|now right].
  destruct Hdiv as [D|D]; [left; rewrite P3; exact D|]. right. rewrite D in Hc.
  assert (c = 0) by lia. assert (pos = 0) by (unfold pos; rewrite H0; reflexivity).
  pose proof (div_ceil_bounds n T ltac:(lia)) as B. rewrite D in B. unfold len. lia.
Qed.

Definition u_first : Z := fst (fst (units_region s rs pos len)).
Definition u_num : Z := snd (fst (units_region s rs pos len)).
Lemma region_eq : u_first = Z.min (pos / S) rs /\ u_num = Z.min (div_ceil len S) (rs - u_first) /\
  snd (units_region s rs pos len) = true.
Proof.
  unfold u_first, u_num, units_region. cbn [fst snd]. fold S. change ((len + S - 1) / S) with (div_ceil len S).
  split; [reflexivity|]. split; [reflexivity|].
  destruct pos_len as (P0 & P1 & P2 & P3). pose proof S_pos as HS. destruct rs_bounds as [R1 R2].
  rewrite pos_mod. cbn [Z.eqb andb].
  assert (Q : pos / S + div_ceil len S <= div_ceil n S).
  { pose proof (Z.div_mod pos S ltac:(lia)) as D. rewrite pos_mod in D.
    pose proof (div_ceil_bounds len S ltac:(lia)) as B. pose proof (div_ceil_bounds n S ltac:(lia)) as B'.
    destruct (Z.le_gt_cases (pos / S + div_ceil len S) (div_ceil n S)) as [L|L]; [exact L|].
    assert (S * div_ceil n S <= S * (pos / S + div_ceil len S - 1)) by (apply Z.mul_le_mono_nonneg_l; lia). lia. }
  pose proof (div_ceil_pos len S ltac:(lia) ltac:(lia)).
  apply andb_true_iff. split; [apply Z.ltb_lt; lia|apply Z.leb_le; lia].
Qed.
Lemma num_bounds : 0 <= u_num <= div_ceil len S /\ 0 <= u_first /\ u_first + u_num <= rs.
Proof.
  destruct region_eq as (E1 & E2 & _). destruct pos_len as (P0 & P1 & P2 & P3). pose proof S_pos as HS. destruct rs_bounds as [R1 R2].
  pose proof (div_ceil_pos len S ltac:(lia) ltac:(lia)). assert (0 <= pos / S) by (apply Z.div_pos; lia). lia.
Qed.

(** what the decoder reads at superblock [pos + x] *)
Lemma units_at x : 0 <= x < len ->
  s_units u d w (16 * (pos + x)) = if (x mod S =? 0) && (x / S <? u_num) then [u_first + x / S] else [].
Proof.
  intros Hx. destruct region_eq as (E1 & E2 & _). destruct pos_len as (P0 & P1 & P2 & P3). pose proof S_pos as HS.
  destruct rs_bounds as [R1 R2]. destruct mi_pos as [Hm Hu]. set (mi := 4 / 2 ^ d) in *.
  unfold s_units. fold mi. cbv zeta. fold rs.
  assert (M0 : 0 < 16 * mi) by (clear - Hm; lia). assert (S0 : 0 < S) by (clear - HS; lia).
  assert (Q1 : (16 * (pos + x) * mi + u - 1) / u = div_ceil (pos + x) S).
  { change ((16 * (pos + x) * mi + u - 1) / u) with (div_ceil (16 * (pos + x) * mi) u). rewrite Hu.
    rewrite <- (div_ceil_mul (16 * mi) (pos + x) S M0 S0). f_equal. ring. }
  assert (Q2 : ((16 * (pos + x) + 16) * mi + u - 1) / u = (pos + x) / S + 1).
  { rewrite <- (div_ceil_succ (pos + x) S S0).
    change (((16 * (pos + x) + 16) * mi + u - 1) / u) with (div_ceil ((16 * (pos + x) + 16) * mi) u). rewrite Hu.
    rewrite <- (div_ceil_mul (16 * mi) (pos + x + 1) S M0 S0). f_equal. ring. }
  rewrite Q1, Q2.
  pose proof (Z.div_mod pos S ltac:(lia)) as DP. rewrite pos_mod in DP. set (k := pos / S) in *.
  assert (A1 : (pos + x) / S = k + x / S) by (rewrite DP, Z.add_0_r, Z.add_comm, Z.mul_comm, Z.div_add by lia; lia).
  assert (A2 : (pos + x) mod S = x mod S) by (rewrite DP, Z.add_0_r, Z.add_comm, Z.mul_comm, Z.mod_add by lia; reflexivity).
  rewrite A1. pose proof A2 as A2'.
  assert (X0 : 0 <= x / S) by (apply Z.div_pos; [apply Hx|exact S0]). assert (K0 : 0 <= k) by (apply Z.div_pos; [exact P0|exact S0]).
  assert (XL : x / S < div_ceil len S) by (apply div_lt_ceil; [exact S0|exact Hx]).
  clear R2 Q1 Q2 Hu Hm M0 P1 P2 P3 A2' Hx DP.
  unfold s_upto, zrange.
  destruct (div_ceil_cases (pos + x) S ltac:(lia)) as [[M E]|[M E]]; rewrite E, A1, A2 in *.
  - rewrite M. cbn [Z.eqb andb].
    destruct (Z.ltb_spec (x / S) u_num) as [L|L].
    + assert (k < rs) by lia. assert (u_first = k) by lia.
      replace (Z.min (k + x / S + 1) rs - (k + x / S)) with 1 by lia.
      change (seq 0 (Z.to_nat 1)) with [0%nat]. cbn [map]. f_equal. lia.
    + replace (Z.to_nat (Z.min (k + x / S + 1) rs - (k + x / S))) with 0%nat by lia. reflexivity.
  - destruct (Z.eqb_spec (x mod S) 0); [contradiction|]. cbn [andb].
    replace (Z.to_nat (Z.min (k + x / S + 1) rs - (k + x / S + 1))) with 0%nat by lia. reflexivity.
Qed.
End Dim.

(** Every unit in exactly one tile, one dimension. *)
Section Dim2.
Variables (w d s T : Z).
Hypotheses (Hw : 1 <= w) (Hd : 0 <= d <= 1) (Hs : 0 <= s) (HT : 1 <= T).
Let n := div_ceil w 64.
Let S := 2 ^ s.
Let u := 2 ^ (6 - d + s).
Let rs := s_count_units u (s_round2 w d).
Hypothesis Hdiv : T mod S = 0 \/ div_ceil n T = 1.

Lemma unit_owner j : 0 <= j < rs -> exists c, 0 <= c < div_ceil n T /\
  forall c', 0 <= c' < div_ceil n T ->
    (u_first w d s T c' <= j < u_first w d s T c' + u_num w d s T c' <-> c' = c).
Proof.
  intros Hj. pose proof (S_pos w d s T Hs) as HS. fold S in HS. destruct (rs_bounds w d s T Hw Hd Hs HT) as [R1 R2].
  fold n in R1, R2. fold S in R1, R2. fold u in R1, R2. fold rs in R1, R2.
  assert (Char : forall c', 0 <= c' < div_ceil n T ->
    (u_first w d s T c' <= j < u_first w d s T c' + u_num w d s T c' <->
     c' * T <= S * j < c' * T + Z.min T (n - c' * T))).
  { intros c' Hc'. destruct (region_eq w d s T Hw Hd Hs HT Hdiv c' Hc') as (E1 & E2 & _).
    pose proof (pos_mod w d s T Hs Hdiv c' Hc') as PM. fold S in PM, E1, E2. fold n in E1, E2. fold u in E1, E2. fold rs in E1, E2.
    destruct (pos_len w d s T Hd Hs HT c' Hc') as (P0 & P1 & P2 & P3). fold n in P0, P1, P2, P3.
    set (pos := c' * T) in *. set (len := Z.min T (n - pos)) in *.
    pose proof (Z.div_mod pos S ltac:(lia)) as DP. rewrite PM in DP. set (k := pos / S) in *.
    assert (K0 : 0 <= k) by (apply Z.div_pos; lia).
    pose proof (div_ceil_bounds len S ltac:(lia)) as B. set (m := div_ceil len S) in *.
    pose proof (div_ceil_pos len S ltac:(lia) ltac:(lia)) as Mp. fold m in Mp.
    assert (J : k <= j < k + m <-> u_first w d s T c' <= j < u_first w d s T c' + u_num w d s T c') by lia.
    rewrite <- J. split.
    - intros [J1 J2].
      assert (S * k <= S * j) by (apply Z.mul_le_mono_nonneg_l; lia).
      assert (S * j <= S * (k + m - 1)) by (apply Z.mul_le_mono_nonneg_l; lia). lia.
    - intros [J1 J2]. split.
      + destruct (Z.le_gt_cases k j) as [L|L]; [exact L|]. assert (S * j <= S * (k - 1)) by (apply Z.mul_le_mono_nonneg_l; lia). lia.
      + destruct (Z.lt_ge_cases j (k + m)) as [L|L]; [exact L|]. assert (S * (k + m) <= S * j) by (apply Z.mul_le_mono_nonneg_l; lia). lia. }
  assert (Hp : 0 <= S * j < n).
  { split; [apply Z.mul_nonneg_nonneg; lia|]. pose proof (div_ceil_bounds n S ltac:(lia)) as B.
    assert (S * j <= S * (div_ceil n S - 1)) by (apply Z.mul_le_mono_nonneg_l; lia). lia. }
  exists (S * j / T). split; [apply piece_index; lia|].
  intros c' Hc'. rewrite (Char c' Hc'). apply piece_of; lia.
Qed.
End Dim2.

(** ** One tile *)
Section TileLrf.
Variables (w h : Z) (is_422 : bool) (t : tiling) (sbc sbr : Z).
Hypothesis F : tiling_facts w h is_422 t sbc sbr.
Hypotheses (Hw : 1 <= w) (Hh : 1 <= h).

Lemma sbc_eq : sbc = div_ceil w 64.
Proof.
  rewrite (tf_sbc _ _ _ _ _ _ F), (tf_fw _ _ _ _ _ _ F). pose proof (div_ceil_bounds w 8 ltac:(lia)).
  pose proof (div_ceil_bounds w 64 ltac:(lia)). apply div_ceil_spec; [lia|]. set (q := div_ceil w 64) in *. set (m := div_ceil w 8) in *.
  clearbody q m. lia.
Qed.
Lemma sbr_eq : sbr = div_ceil h 64.
Proof.
  rewrite (tf_sbr _ _ _ _ _ _ F), (tf_fh _ _ _ _ _ _ F). pose proof (div_ceil_bounds h 8 ltac:(lia)).
  pose proof (div_ceil_bounds h 64 ltac:(lia)). apply div_ceil_spec; [lia|]. set (q := div_ceil h 64) in *. set (m := div_ceil h 8) in *.
  clearbody q m. lia.
Qed.
Lemma fw_sb : 64 * (div_ceil w 64 - 1) < t_fw t <= 64 * div_ceil w 64.
Proof. rewrite <- sbc_eq, (tf_sbc _ _ _ _ _ _ F). apply div_ceil_bounds. lia. Qed.
Lemma fh_sb : 64 * (div_ceil h 64 - 1) < t_fh t <= 64 * div_ceil h 64.
Proof. rewrite <- sbr_eq, (tf_sbr _ _ _ _ _ _ F). apply div_ceil_bounds. lia. Qed.
Lemma sb_len T a n fw : 1 <= T -> 64 * (n - 1) < fw <= 64 * n -> div_ceil (Z.min (64 * T) (fw - 64 * a)) 64 = Z.min T (n - a).
Proof. intros HT Hn. apply div_ceil_spec; lia. Qed.

Section OneTile.
Variables (c r : Z).
Hypotheses (Hc : 0 <= c < t_cols t) (Hr : 0 <= r < t_rows t).
Let v := view_of t c r.
Definition tX : Z := Z.min (t_tw t) (div_ceil w 64 - c * t_tw t).
Definition tY : Z := Z.min (t_th t) (div_ceil h 64 - r * t_th t).
Lemma tX_eq : align_shift sb_log2 (r_w (v_rect v)) = tX.
Proof.
  rewrite align_shift_eq. change (2 ^ sb_log2) with 64. unfold v, view_of, tX. cbn [v_rect r_w]. cbv zeta. cbn [v_rect r_w].
  replace (c * (64 * t_tw t)) with (64 * (c * t_tw t)) by ring. apply sb_len; [apply (tf_tw _ _ _ _ _ _ F)|apply fw_sb].
Qed.
Lemma tY_eq : align_shift sb_log2 (r_h (v_rect v)) = tY.
Proof.
  rewrite align_shift_eq. change (2 ^ sb_log2) with 64. unfold v, view_of, tY. cbn [v_rect r_h]. cbv zeta. cbn [v_rect r_h].
  replace (r * (64 * t_th t)) with (64 * (r * t_th t)) by ring. apply sb_len; [apply (tf_th _ _ _ _ _ _ F)|apply fh_sb].
Qed.
Lemma Hc' : 0 <= c < div_ceil (div_ceil w 64) (t_tw t).
Proof. rewrite <- sbc_eq, <- (tf_cols _ _ _ _ _ _ F). exact Hc. Qed.
Lemma Hr' : 0 <= r < div_ceil (div_ceil h 64) (t_th t).
Proof. rewrite <- sbr_eq, <- (tf_rows _ _ _ _ _ _ F). exact Hr. Qed.

Section OnePlane.
Variables (dx dy : Z) (p : lrf_plane).
Hypotheses (Hdx : 0 <= dx <= 1) (Hdy : 0 <= dy <= 1) (P : plane_ok w h t dx dy p).
Lemma div_x : t_tw t mod 2 ^ lp_h_shift p = 0 \/ div_ceil (div_ceil w 64) (t_tw t) = 1.
Proof. rewrite <- sbc_eq, <- (tf_cols _ _ _ _ _ _ F). exact (po_tw _ _ _ _ _ _ P). Qed.
Lemma div_y : t_th t mod 2 ^ lp_v_shift p = 0 \/ div_ceil (div_ceil h 64) (t_th t) = 1.
Proof. rewrite <- sbr_eq, <- (tf_rows _ _ _ _ _ _ F). exact (po_th _ _ _ _ _ _ P). Qed.
Let tw1 : 1 <= t_tw t := proj1 (tf_tw _ _ _ _ _ _ F).
Let th1 : 1 <= t_th t := proj1 (tf_th _ _ _ _ _ _ F).

Lemma tile_plane_eq : tile_plane (div_ceil w 64) (div_ceil h 64) v p =
  ({| tp_h := lp_h_shift p; tp_v := lp_v_shift p;
      tp_ux := u_first w dx (lp_h_shift p) (t_tw t) c; tp_uy := u_first h dy (lp_v_shift p) (t_th t) r;
      tp_cols := u_num w dx (lp_h_shift p) (t_tw t) c; tp_rows := u_num h dy (lp_v_shift p) (t_th t) r;
      tp_fcols := div_ceil w 64; tp_frows := div_ceil h 64 |}, true).
Proof.
  destruct (region_eq w dx (lp_h_shift p) (t_tw t) Hw Hdx (po_h _ _ _ _ _ _ P) tw1 div_x c Hc') as (_ & _ & Ex).
  destruct (region_eq h dy (lp_v_shift p) (t_th t) Hh Hdy (po_v _ _ _ _ _ _ P) th1 div_y r Hr') as (_ & _ & Ey).
  unfold u_first, u_num. rewrite <- (po_uh _ _ _ _ _ _ P), <- (po_cols _ _ _ _ _ _ P) in *.
  rewrite <- (po_uv _ _ _ _ _ _ P), <- (po_rows _ _ _ _ _ _ P) in *.
  unfold tile_plane. rewrite tX_eq, tY_eq. change (v_sbx v) with (c * t_tw t). change (v_sby v) with (r * t_th t).
  unfold tX, tY.
  destruct (units_region (lp_h_shift p) (lp_cols p) _ _) as [[a b] o]. destruct (units_region (lp_v_shift p) (lp_rows p) _ _) as [[a' b'] o'].
  cbn [fst snd] in *. subst o o'. reflexivity.
Qed.
Let q := fst (tile_plane (div_ceil w 64) (div_ceil h 64) v p).
Lemma good_plane : good (v_sbx v) (v_sby v) tX tY q.
Proof.
  unfold q. rewrite tile_plane_eq. cbn [fst]. change (v_sbx v) with (c * t_tw t). change (v_sby v) with (r * t_th t).
  destruct (num_bounds w dx (lp_h_shift p) (t_tw t) Hw Hdx (po_h _ _ _ _ _ _ P) tw1 div_x c Hc') as (Nx & _ & _).
  destruct (num_bounds h dy (lp_v_shift p) (t_th t) Hh Hdy (po_v _ _ _ _ _ _ P) th1 div_y r Hr') as (Ny & _ & _).
  destruct (pos_len w dx (lp_h_shift p) (t_tw t) Hdx (po_h _ _ _ _ _ _ P) tw1 c Hc') as (Ax & Bx & Cx & _).
  destruct (pos_len h dy (lp_v_shift p) (t_th t) Hdy (po_v _ _ _ _ _ _ P) th1 r Hr') as (Ay & By & Cy & _).
  constructor; cbn [tp_h tp_v tp_cols tp_rows tp_fcols tp_frows].
  - exact (po_h _ _ _ _ _ _ P).
  - exact (po_v _ _ _ _ _ _ P).
  - exact Nx.
  - exact Ny.
  - split; assumption.
  - split; assumption.
  - exact (len_mod w dx (lp_h_shift p) (t_tw t) Hdx (po_h _ _ _ _ _ _ P) tw1 div_x c Hc').
  - exact (len_mod h dy (lp_v_shift p) (t_th t) Hdy (po_v _ _ _ _ _ _ P) th1 div_y r Hr').
Qed.
Lemma read_plane pli x y : 0 <= x < tX -> 0 <= y < tY ->
  flat_map (fun urow => map (fun ucol => EvLrf pli ucol urow) (s_units (lp_unit p) dx w (16 * (c * t_tw t + x))))
           (s_units (lp_unit p) dy h (16 * (r * t_th t + y))) =
  if first_sb q x y then [EvLrf pli (tp_ux q + x / 2 ^ tp_h q) (tp_uy q + y / 2 ^ tp_v q)] else [].
Proof.
  intros Hx Hy. unfold q. rewrite tile_plane_eq. cbn [fst]. unfold first_sb, inside. cbn [tp_h tp_v tp_ux tp_uy tp_cols tp_rows].
  pose proof (units_at w dx (lp_h_shift p) (t_tw t) Hw Hdx (po_h _ _ _ _ _ _ P) tw1 div_x c Hc' x Hx) as Ux.
  pose proof (units_at h dy (lp_v_shift p) (t_th t) Hh Hdy (po_v _ _ _ _ _ _ P) th1 div_y r Hr' y Hy) as Uy.
  rewrite <- (po_uh _ _ _ _ _ _ P) in Ux. rewrite <- (po_uv _ _ _ _ _ _ P) in Uy. rewrite Ux, Uy.
  destruct (x mod 2 ^ lp_h_shift p =? 0), (y mod 2 ^ lp_v_shift p =? 0), (x / 2 ^ lp_h_shift p <? u_num w dx (lp_h_shift p) (t_tw t) c),
    (y / 2 ^ lp_v_shift p <? u_num h dy (lp_v_shift p) (t_th t) r); reflexivity.
Qed.
End OnePlane.

(** Several planes: (subsampling, plane) *)
Definition pl_ok (d : Z * Z * lrf_plane) : Prop :=
  0 <= fst (fst d) <= 1 /\ 0 <= snd (fst d) <= 1 /\ plane_ok w h t (fst (fst d)) (snd (fst d)) (snd d).
Definition spec_of (d : Z * Z * lrf_plane) : s_plane :=
  {| sp_unit := lp_unit (snd d); sp_ssx := fst (fst d); sp_ssy := snd (fst d) |}.
Definition tile_of (d : Z * Z * lrf_plane) : tplane := fst (tile_plane (div_ceil w 64) (div_ceil h 64) v (snd d)).

Lemma read_all ds : Forall pl_ok ds -> forall pli x y, 0 <= x < tX -> 0 <= y < tY ->
  s_read_lr pli (map spec_of ds) w h (16 * (r * t_th t + y)) (16 * (c * t_tw t + x)) = lrs pli (map tile_of ds) x y.
Proof.
  induction 1 as [|[[dx dy] p] ds (Hx & Hy & P) _ IH]; intros pli x y Ix Iy; [reflexivity|].
  cbn [map s_read_lr lrs]. rewrite (IH (pli + 1) x y Ix Iy). f_equal.
  exact (read_plane dx dy p Hx Hy P pli x y Ix Iy).
Qed.

Lemma positions_x : s_positions (r_x (v_blocks v)) (r_x (v_blocks v) + r_w (v_blocks v)) =
  map (fun k => 16 * (c * t_tw t + k)) (zrange 0 tX).
Proof.
  unfold s_positions. pose proof (fw8 _ _ _ _ _ _ F) as [E8 _]. pose proof fw_sb as B.
  replace ((r_x (v_blocks v) + r_w (v_blocks v) - r_x (v_blocks v) + 15) / 16) with tX.
  - apply map_ext. intros k. unfold v, view_of. cbn [v_blocks r_x]. ring.
  - unfold v, view_of, tX. cbv zeta. cbn [v_blocks r_x r_w].
    replace (c * (16 * t_tw t)) with (16 * (c * t_tw t)) by ring. set (a := c * t_tw t). set (T := t_tw t). 
    set (n := div_ceil w 64) in *. set (m := t_fw t / 4) in *.
    assert (HT : 1 <= T) by apply (tf_tw _ _ _ _ _ _ F). assert (Bm : 16 * (n - 1) < m <= 16 * n) by (clearbody m n; clear - E8 B; lia).
    clear - HT Bm. clearbody a T n m.
    apply Z.div_unique with ((16 * a + Z.min (16 * T) (m - 16 * a) - 16 * a + 15) - 16 * Z.min T (n - a)); lia.
Qed.
Lemma positions_y : s_positions (r_y (v_blocks v)) (r_y (v_blocks v) + r_h (v_blocks v)) =
  map (fun k => 16 * (r * t_th t + k)) (zrange 0 tY).
Proof.
  unfold s_positions. pose proof (fw8 _ _ _ _ _ _ F) as [_ E8]. pose proof fh_sb as B.
  replace ((r_y (v_blocks v) + r_h (v_blocks v) - r_y (v_blocks v) + 15) / 16) with tY.
  - apply map_ext. intros k. unfold v, view_of. cbn [v_blocks r_y]. ring.
  - unfold v, view_of, tY. cbv zeta. cbn [v_blocks r_y r_h].
    replace (r * (16 * t_th t)) with (16 * (r * t_th t)) by ring. set (a := r * t_th t). set (T := t_th t). 
    set (n := div_ceil h 64) in *. set (m := t_fh t / 4) in *.
    assert (HT : 1 <= T) by apply (tf_th _ _ _ _ _ _ F). assert (Bm : 16 * (n - 1) < m <= 16 * n) by (clearbody m n; clear - E8 B; lia).
    clear - HT Bm. clearbody a T n m.
    apply Z.div_unique with ((16 * a + Z.min (16 * T) (m - 16 * a) - 16 * a + 15) - 16 * Z.min T (n - a)); lia.
Qed.

Lemma zrange_in n k : In k (zrange 0 n) -> 0 <= k < n.
Proof. unfold zrange. rewrite in_map_iff. intros (i & <- & Hi). apply in_seq in Hi. lia. Qed.
Lemma flat_map_map {A B C} (f : A -> B) (g : B -> list C) l : flat_map g (map f l) = flat_map (fun a => g (f a)) l.
Proof. induction l as [|a l IH]; [reflexivity|]. cbn [map flat_map]. rewrite IH. reflexivity. Qed.
Lemma flat_map_eq {A B} (f g : A -> list B) l : (forall a, In a l -> f a = g a) -> flat_map f l = flat_map g l.
Proof.
  induction l as [|a l IH]; intros H; [reflexivity|]. cbn [flat_map]. rewrite (H a (or_introl eq_refl)), IH; [reflexivity|].
  intros b Hb. apply H. now right.
Qed.
Lemma flat_map_flat {A B C} (f : A -> list B) (g : B -> list C) l : flat_map g (flat_map f l) = flat_map (fun a => flat_map g (f a)) l.
Proof. induction l as [|a l IH]; [reflexivity|]. cbn [flat_map]. rewrite flat_map_app, IH. reflexivity. Qed.

Lemma decode_eq lrf cdef ds : Forall pl_ok ds ->
  s_decode_tile lrf cdef (map spec_of ds) w h
    (r_y (v_blocks v)) (r_y (v_blocks v) + r_h (v_blocks v)) (r_x (v_blocks v)) (r_x (v_blocks v) + r_w (v_blocks v)) =
  flat_map (sb_events lrf cdef (map tile_of ds)) (raster tX tY).
Proof.
  intros H. unfold s_decode_tile. rewrite positions_x, positions_y. unfold raster. rewrite flat_map_map, flat_map_flat.
  apply flat_map_eq. intros y Hy. rewrite !flat_map_map. apply flat_map_eq. intros x Hx.
  apply zrange_in in Hx, Hy. unfold sb_events. rewrite (read_all ds H 0 x y Hx Hy).
  replace ((16 * (c * t_tw t + x) - r_x (v_blocks v)) / 16) with x.
  2:{ unfold v, view_of. cbn [v_blocks r_x]. replace (16 * (c * t_tw t + x) - c * (16 * t_tw t)) with (x * 16) by ring.
      rewrite Z.div_mul by lia. reflexivity. }
  replace ((16 * (r * t_th t + y) - r_y (v_blocks v)) / 16) with y.
  2:{ unfold v, view_of. cbn [v_blocks r_y]. replace (16 * (r * t_th t + y) - r * (16 * t_th t)) with (y * 16) by ring.
      rewrite Z.div_mul by lia. reflexivity. }
  reflexivity.
Qed.

Lemma tile_stream lrf delayed cdef ds : ds <> [] -> Forall pl_ok ds ->
  encode_tile lrf delayed cdef (map tile_of ds) (v_sbx v) (v_sby v)
    (align_shift sb_log2 (r_w (v_rect v))) (align_shift sb_log2 (r_h (v_rect v))) =
  Some (s_decode_tile lrf cdef (map spec_of ds) w h
    (r_y (v_blocks v)) (r_y (v_blocks v) + r_h (v_blocks v)) (r_x (v_blocks v)) (r_x (v_blocks v) + r_w (v_blocks v))).
Proof.
  intros Ne H. rewrite (decode_eq lrf cdef ds H), tX_eq, tY_eq.
  destruct (pos_len w 0 0 (t_tw t) ltac:(lia) ltac:(lia) (proj1 (tf_tw _ _ _ _ _ _ F)) c Hc') as (_ & Bx & _).
  destruct (pos_len h 0 0 (t_th t) ltac:(lia) ltac:(lia) (proj1 (tf_th _ _ _ _ _ _ F)) r Hr') as (_ & By & _).
  apply encode_tile_ok; [exact Bx|exact By| |].
  - destruct ds; [contradiction|discriminate].
  - clear Ne. induction H as [|[[dx dy] p] l (Hx & Hy & P) _ IH]; [constructor|]. cbn [map]. constructor; [|exact IH].
    exact (good_plane dx dy p Hx Hy P).
Qed.
End OneTile.
End TileLrf.
