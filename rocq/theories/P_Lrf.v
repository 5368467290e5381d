(** Properties C42 and C49: the superblock queue of a tile, and the
    loop-restoration units. *)
From Verif Require Import Base Bits Tile_model Tile_spec Tile_proof Tile_main P_Tile Lrf_model Lrf_spec Lrf_queue Lrf_proof.

(** ** C49 *)

(** The rectangle of units owned by a tile. *)
Definition unit_rect (fc fr : Z) (p : lrf_plane) (v : tile_view) : rect :=
  let q := fst (tile_plane fc fr v p) in
  {| r_x := tp_ux q; r_y := tp_uy q; r_w := tp_cols q; r_h := tp_rows q |}.

(** A frame of any size with any accepted tiling, chroma format
    4:2:0, 4:2:2, 4:4:4 or monochrome ([xdec], [ydec]), quantizer [q] and
    speed setting [large]:
    - a layout is computed, and the frame header written for it makes a decoder
      use exactly its unit sizes;
    - every plane is cut into the number of units the specification derives;
    - no debug assertion of the tile's region fails, and every unit is owned by
      exactly one tile. *)
Definition C49_units_stmt : Prop :=
  forall w h rl tile_cols tile_rows tiles xdec ydec large q t, 1 <= w <= 65535 -> 1 <= h <= 65535 ->
  0 <= xdec <= 1 -> 0 <= ydec <= xdec -> (large = true -> 1 < w /\ 1 < h) ->
  sequence_tiling w h rl tile_cols tile_rows tiles ((xdec =? 1) && (ydec =? 0)) = Some t ->
  let n := t_rows t * t_cols t in
  let fc := align_shift 6 w in let fr := align_shift 6 h in
  exists y uv, lrf_layout large q w h xdec ydec t = Some (y, uv) /\
    (forall types, types <> [] -> Forall (fun x => 1 <= x <= 3) types ->
       round_trips (w_frame_lrf true false false ((0 <? xdec) && (0 <? ydec)) types (lp_unit y) (lp_unit uv))
         (s_lr_params true false false (0 <? xdec) (0 <? ydec) (zlen types))
         (Some (types, Some (lp_unit y, if zlen types =? 1 then lp_unit y else lp_unit uv)))) /\
    forall p dx dy, In (p, dx, dy) [(y, 0, 0); (uv, xdec, ydec)] ->
      lp_cols p = s_count_units (lp_unit p) (s_round2 w dx) /\
      lp_rows p = s_count_units (lp_unit p) (s_round2 h dy) /\
      (forall i v, tile_view_at t i = Some v -> 0 <= i -> snd (tile_plane fc fr v p) = true) /\
      (forall a b, 0 <= a < lp_cols p -> 0 <= b < lp_rows p ->
         in_exactly_one n (fun i => option_map (unit_rect fc fr p) (tile_view_at t i)) a b).

(** ** C42 *)

(** The planes of the encoder and of the specification. *)
Definition model_planes (mono : bool) (fc fr : Z) (v : tile_view) (y uv : lrf_plane) : list tplane :=
  map (fun p => fst (tile_plane fc fr v p)) (if mono then [y] else [y; uv; uv]).
Definition spec_planes (mono : bool) (yu uvu xdec ydec : Z) : list s_plane :=
  {| sp_unit := yu; sp_ssx := 0; sp_ssy := 0 |} ::
  (if mono then [] else [{| sp_unit := uvu; sp_ssx := xdec; sp_ssy := ydec |}; {| sp_unit := uvu; sp_ssx := xdec; sp_ssy := ydec |}]).

(** In every tile, with or without delayed loop filter decisions, with
    restoration used or not, whichever superblocks carry a CDEF index: the
    queue is empty at the end (the assertion holds), and the superblocks
    come out in raster order with the parameters of every restoration
    unit exactly where a decoder reads them. *)
Definition C42_stmt : Prop :=
  forall w h rl tile_cols tile_rows tiles xdec ydec large q t i v y uv mono lrf delayed cdef,
  1 <= w <= 65535 -> 1 <= h <= 65535 -> 0 <= xdec <= 1 -> 0 <= ydec <= xdec -> (large = true -> 1 < w /\ 1 < h) ->
  sequence_tiling w h rl tile_cols tile_rows tiles ((xdec =? 1) && (ydec =? 0)) = Some t ->
  lrf_layout large q w h xdec ydec t = Some (y, uv) -> 0 <= i -> tile_view_at t i = Some v ->
  let B := v_blocks v in
  encode_tile lrf delayed cdef (model_planes mono (align_shift 6 w) (align_shift 6 h) v y uv) (v_sbx v) (v_sby v)
    (align_shift 6 (r_w (v_rect v))) (align_shift 6 (r_h (v_rect v))) =
  Some (s_decode_tile lrf cdef (spec_planes mono (lp_unit y) (lp_unit uv) xdec ydec) w h
          (r_y B) (r_y B + r_h B) (r_x B) (r_x B + r_w B)).

Lemma view_at_inv t i v : tile_view_at t i = Some v -> i < t_rows t * t_cols t.
Proof. unfold tile_view_at. destruct (Z.ltb_spec i (t_rows t * t_cols t)); [auto|discriminate]. Qed.

Lemma in_two {A} (a b x : A) : In x [a; b] -> x = a \/ x = b.
Proof. intros [H|[H|[]]]; auto. Qed.

Lemma lr_header yu uvu xdec ydec types : 0 <= xdec <= 1 -> 0 <= ydec <= xdec ->
  (exists e, 6 <= e <= 8 /\ yu = 2 ^ e) -> (uvu = yu \/ (xdec = 1 /\ ydec = 1 /\ 2 * uvu = yu)) ->
  types <> [] -> Forall (fun x => 1 <= x <= 3) types ->
  round_trips (w_frame_lrf true false false ((0 <? xdec) && (0 <? ydec)) types yu uvu)
    (s_lr_params true false false (0 <? xdec) (0 <? ydec) (zlen types))
    (Some (types, Some (yu, if zlen types =? 1 then yu else uvu))).
Proof.
  intros Hx Hy (e & He & Ey) Eu Ne Ft. unfold w_frame_lrf, s_lr_params. cbn [orb andb negb w_if].
  assert (U : forall l, Forall (fun x => 1 <= x <= 3) l -> existsb (fun t => negb (t =? 0)) l = negb (zlen l =? 0)).
  { intros l H. destruct H as [|x l Hx' _]; [reflexivity|]. cbn [existsb]. destruct (Z.eqb_spec x 0); [lia|].
    cbn [negb orb]. destruct (Z.eqb_spec (zlen (x :: l)) 0) as [E|E]; [|reflexivity]. pose proof (zlen_nonneg _ l). rewrite zlen_cons in E. lia. }
  assert (Zt : zlen types <> 0) by (destruct types; [contradiction|]; rewrite zlen_cons; pose proof (zlen_nonneg _ types); lia).
  assert (Zl : zlen (tl types) = zlen types - 1) by (destruct types; [contradiction|]; cbn [tl]; rewrite zlen_cons; lia).
  eapply rt_bind.
  - replace (Z.to_nat (zlen types)) with (length types) by (unfold zlen; lia).
    pose proof (rt_list (fun t => w_bits 2 t) (p_f 2) (fun x => x) types) as R. rewrite map_id in R. apply R.
    intros x Hin. rewrite Forall_forall in Ft. specialize (Ft x Hin). apply rt_bits; [lia|]. change (2 ^ 2) with 4. lia.
  - cbv zeta. rewrite (U types Ft).
    rewrite (U (tl types)) by (destruct Ft; [constructor|assumption]). rewrite Zl.
    destruct (Z.eqb_spec (zlen types) 0); [contradiction|]. cbn [negb w_if].
    rewrite <- w_seq_assoc.
    apply (rt_bind _ _ _ _ (e - 6)).
    + assert (C : e = 6 \/ e = 7 \/ e = 8) by lia. destruct C as [-> |[-> | ->]]; subst yu; (eexists; split; [reflexivity|]; intros rest; reflexivity).
    + assert (Sz : Z.shiftr 256 (2 - (e - 6)) = yu).
      { rewrite Ey. assert (C : e = 6 \/ e = 7 \/ e = 8) by lia. destruct C as [-> |[-> | ->]]; reflexivity. }
      rewrite Sz.
      assert (M : (zlen types - 1 =? 0) = (zlen types =? 1)).
      { destruct (Z.eqb_spec (zlen types) 1), (Z.eqb_spec (zlen types - 1) 0); lia || reflexivity. }
      rewrite M, (andb_comm (negb (zlen types =? 1))).
      assert (D : ((0 <? xdec) && (0 <? ydec) = true) \/ ((0 <? xdec) && (0 <? ydec) = false /\ uvu = yu)).
      { destruct (Z.ltb_spec 0 xdec), (Z.ltb_spec 0 ydec); cbn [andb]; try (now left); right; (split; [reflexivity|lia]). }
      destruct D as [-> |[-> ->]].
      * cbn [andb]. destruct (zlen types =? 1); cbn [negb w_if].
        -- exists []. split; [reflexivity|]. intros rest. cbn. reflexivity.
        -- eapply rt_last; [apply rt_bits; [lia|]; destruct (uvu <? yu); cbn [b2z]; lia|].
           cbv beta. f_equal. do 3 f_equal. destruct (Z.ltb_spec uvu yu) as [L|L]; cbn [b2z].
           ++ destruct Eu as [Eu|(_ & _ & Eu)]; [lia|]. rewrite <- Eu. rewrite Z.shiftr_div_pow2 by lia. change (2 ^ 1) with 2.
              rewrite Z.mul_comm, Z.div_mul by lia. reflexivity.
           ++ rewrite Z.shiftr_0_r. destruct Eu as [Eu|(_ & _ & Eu)]; [rewrite Eu; reflexivity|]. pose proof (pow2_pos e ltac:(lia)). lia.
      * cbn [andb w_if]. destruct (zlen types =? 1); (exists []; split; [reflexivity|]; intros rest; cbn; reflexivity).
Qed.

Theorem C49_units : C49_units_stmt.
Proof.
  intros w h rl tile_cols tile_rows tiles xdec ydec large q t Hw Hh Hx Hy Hl E n fc fr.
  pose proof (sequence_facts _ _ _ _ _ _ _ _ Hw Hh E) as F.
  destruct (layout_ok large q w h xdec ydec _ t _ _ F Hx Hy eq_refl Hl) as (y & uv & L & Py & Pu & Uy & Uu).
  exists y, uv. split; [exact L|]. split.
  - intros types. apply lr_header; try assumption.
    pose proof (po_uh _ _ _ _ _ _ Py) as Ue. pose proof (po_h _ _ _ _ _ _ Py) as Hs. exists (6 - 0 + lp_h_shift y). split; [|exact Ue].
    rewrite Ue in Uy. split; [lia|]. destruct (Z.le_gt_cases (6 - 0 + lp_h_shift y) 8) as [G|G]; [exact G|].
    assert (2 ^ 9 <= 2 ^ (6 - 0 + lp_h_shift y)) by (apply Z.pow_le_mono_r; lia). change (2 ^ 9) with 512 in H. lia.
  - intros p dx dy Hin.
    assert (P : plane_ok w h t dx dy p /\ 0 <= dx <= 1 /\ 0 <= dy <= 1).
    { apply in_two in Hin. destruct Hin as [Hin|Hin]; injection Hin as -> -> ->; (split; [assumption|lia]). }
    destruct P as (P & Hdx & Hdy). split; [exact (po_cols _ _ _ _ _ _ P)|]. split; [exact (po_rows _ _ _ _ _ _ P)|].
    assert (Fc : fc = div_ceil w 64) by (unfold fc; rewrite align_shift_eq; reflexivity).
    assert (Fr : fr = div_ceil h 64) by (unfold fr; rewrite align_shift_eq; reflexivity).
    pose proof (cols_pos _ _ _ _ _ _ F) as Cp. pose proof (rows_pos _ _ _ _ _ _ F) as Rp.
    assert (View : forall i, 0 <= i < n -> 0 <= i mod t_cols t < t_cols t /\ 0 <= i / t_cols t < t_rows t /\
      tile_view_at t i = Some (view_of t (i mod t_cols t) (i / t_cols t)) /\
      tile_plane fc fr (view_of t (i mod t_cols t) (i / t_cols t)) p =
      ({| tp_h := lp_h_shift p; tp_v := lp_v_shift p;
          tp_ux := u_first w dx (lp_h_shift p) (t_tw t) (i mod t_cols t); tp_uy := u_first h dy (lp_v_shift p) (t_th t) (i / t_cols t);
          tp_cols := u_num w dx (lp_h_shift p) (t_tw t) (i mod t_cols t); tp_rows := u_num h dy (lp_v_shift p) (t_th t) (i / t_cols t);
          tp_fcols := div_ceil w 64; tp_frows := div_ceil h 64 |}, true)).
    { intros i Hi. destruct (grid_coords (t_cols t) (t_rows t) i ltac:(clear - Cp; lia) Hi) as (Gc & Gr & _).
      split; [exact Gc|]. split; [exact Gr|]. split; [exact (tile_view_at_eq _ _ _ _ _ _ F i Hi)|].
      rewrite Fc, Fr. exact (tile_plane_eq w h _ t _ _ F (proj1 Hw) (proj1 Hh) _ _ Gc Gr dx dy p Hdx Hdy P). }
    split.
    + intros i v Ev Hi. pose proof (view_at_inv _ _ _ Ev) as Hn. destruct (View i (conj Hi Hn)) as (_ & _ & Ev' & Et).
      rewrite Ev' in Ev. injection Ev as <-. rewrite Et. reflexivity.
    + intros a b Ha Hb.
      assert (Dx : t_tw t mod 2 ^ lp_h_shift p = 0 \/ div_ceil (div_ceil w 64) (t_tw t) = 1).
      { exact (div_x w h _ t _ _ F dx dy p P). }
      assert (Dy : t_th t mod 2 ^ lp_v_shift p = 0 \/ div_ceil (div_ceil h 64) (t_th t) = 1).
      { exact (div_y w h _ t _ _ F dx dy p P). }
      assert (Ec : t_cols t = div_ceil (div_ceil w 64) (t_tw t)).
      { rewrite (tf_cols _ _ _ _ _ _ F). f_equal. exact (sbc_eq _ _ _ _ _ _ F). }
      assert (Er : t_rows t = div_ceil (div_ceil h 64) (t_th t)).
      { rewrite (tf_rows _ _ _ _ _ _ F). f_equal. exact (sbr_eq _ _ _ _ _ _ F). }
      pose proof (po_cols _ _ _ _ _ _ P) as Pc. rewrite (po_uh _ _ _ _ _ _ P) in Pc. rewrite Pc in Ha.
      pose proof (po_rows _ _ _ _ _ _ P) as Pr. rewrite (po_uv _ _ _ _ _ _ P) in Pr. rewrite Pr in Hb.
      destruct (unit_owner w dx (lp_h_shift p) (t_tw t) (proj1 Hw) Hdx (po_h _ _ _ _ _ _ P) (proj1 (tf_tw _ _ _ _ _ _ F)) Dx a Ha) as (c & Hc & Oc).
      destruct (unit_owner h dy (lp_v_shift p) (t_th t) (proj1 Hh) Hdy (po_v _ _ _ _ _ _ P) (proj1 (tf_th _ _ _ _ _ _ F)) Dy b Hb) as (r & Hr & Or).
      rewrite <- Ec in Hc, Oc. rewrite <- Er in Hr, Or.
      assert (C0 : 0 < t_cols t) by (clear - Cp; lia).
      destruct (grid_index (t_cols t) (t_rows t) c r C0 Hc Hr) as (Gi & Gm & Gd).
      exists (r * t_cols t + c). split.
      * split; [exact Gi|]. destruct (View _ Gi) as (_ & _ & Ev & Et). eexists. rewrite Ev. cbn [option_map]. split; [reflexivity|].
        unfold unit_rect. rewrite Et. cbn [fst tp_ux tp_uy tp_cols tp_rows]. unfold in_rect. cbn [r_x r_y r_w r_h].
        rewrite Gm, Gd. split; [apply (Oc c Hc); reflexivity|apply (Or r Hr); reflexivity].
      * intros j Hj (u & Eu & Iu). destruct (View j Hj) as (Jc & Jr & Ev & Et). rewrite Ev in Eu. cbn [option_map] in Eu.
        injection Eu as <-. unfold unit_rect in Iu. rewrite Et in Iu. cbn [fst tp_ux tp_uy tp_cols tp_rows] in Iu.
        unfold in_rect in Iu. cbn [r_x r_y r_w r_h] in Iu. destruct Iu as [Ia Ib].
        apply (Oc _ Jc) in Ia. apply (Or _ Jr) in Ib.
        destruct (grid_coords (t_cols t) (t_rows t) j C0 Hj) as (_ & _ & G). rewrite G, Ia, Ib. reflexivity.
Qed.
Print Assumptions C49_units.

Theorem C42 : C42_stmt.
Proof.
  intros w h rl tile_cols tile_rows tiles xdec ydec large q t i v y uv mono lrf delayed cdef Hw Hh Hx Hy Hl E L Hi Ev B.
  pose proof (sequence_facts _ _ _ _ _ _ _ _ Hw Hh E) as F.
  destruct (layout_ok large q w h xdec ydec _ t _ _ F Hx Hy eq_refl Hl) as (y' & uv' & L' & Py & Pu & _).
  rewrite L' in L. injection L as -> ->.
  pose proof (cols_pos _ _ _ _ _ _ F) as Cp. pose proof (view_at_inv _ _ _ Ev) as Hn.
  destruct (grid_coords (t_cols t) (t_rows t) i ltac:(clear - Cp; lia) (conj Hi Hn)) as (Gc & Gr & _).
  pose proof (tile_view_at_eq _ _ _ _ _ _ F i (conj Hi Hn)) as Ev'. rewrite Ev' in Ev. injection Ev as <-.
  set (ds := (0, 0, y) :: (if mono then [] else [(xdec, ydec, uv); (xdec, ydec, uv)])).
  assert (Fc : align_shift 6 w = div_ceil w 64) by (rewrite align_shift_eq; reflexivity).
  assert (Fr : align_shift 6 h = div_ceil h 64) by (rewrite align_shift_eq; reflexivity).
  assert (Ok : Forall (pl_ok w h t) ds).
  { assert (O1 : pl_ok w h t (0, 0, y)) by (split; [cbn; lia|split; [cbn; lia|exact Py]]).
    assert (O2 : pl_ok w h t (xdec, ydec, uv)) by (split; [exact Hx|split; [cbn; lia|exact Pu]]).
    unfold ds. destruct mono; (constructor; [exact O1|]); [constructor|constructor; [exact O2|constructor; [exact O2|constructor]]]. }
  pose proof (tile_stream w h _ t _ _ F (proj1 Hw) (proj1 Hh) _ _ Gc Gr lrf delayed cdef ds ltac:(discriminate) Ok) as S.
  unfold sb_log2 in S. unfold B, model_planes. rewrite Fc, Fr.
  replace (map (fun p => fst (tile_plane (div_ceil w 64) (div_ceil h 64) (view_of t (i mod t_cols t) (i / t_cols t)) p))
    (if mono then [y] else [y; uv; uv])) with (map (tile_of w h t (i mod t_cols t) (i / t_cols t)) ds) by (unfold ds; destruct mono; reflexivity).
  replace (spec_planes mono (lp_unit y) (lp_unit uv) xdec ydec) with (map spec_of ds) by (unfold ds; destruct mono; reflexivity).
  exact S.
Qed.
Print Assumptions C42.

(** The hypotheses are met: a 4:2:0 frame of 1000x700 with 4 by 2 tiles. *)
Example C49_example :
  match sequence_tiling 1000 700 0 4 2 0 false with
  | Some t =>
      match lrf_layout true 255 1000 700 1 1 t with
      | Some (y, uv) =>
          (t_cols t, t_rows t, lp_unit y, lp_cols y, lp_rows y, lp_unit uv, lp_cols uv, lp_rows uv)
      | None => (0, 0, 0, 0, 0, 0, 0, 0)
      end
  | None => (0, 0, 0, 0, 0, 0, 0, 0)
  end = (4, 2, 128, 8, 5, 64, 8, 5).
Proof. vm_compute. reflexivity. Qed.
(** One tile of 5 by 4 superblocks with six luma units and one unit in each chroma plane. *)
Example C42_example :
  match sequence_tiling 320 200 0 0 0 0 false with
  | Some t =>
      match lrf_layout true 170 320 200 1 1 t, tile_view_at t 0 with
      | Some (y, uv), Some v =>
          match encode_tile true false (fun _ _ => true) (model_planes false 5 4 v y uv) 0 0 5 4 with
          | Some evs => (lp_unit y, lp_unit uv, zlen evs, firstn 8 evs)
          | None => (0, 0, 0, []) end
      | _, _ => (0, 0, 0, [])
      end
  | None => (0, 0, 0, [])
  end = (128, 128, 68, [EvLrf 0 0 0; EvLrf 1 0 0; EvLrf 2 0 0; EvPre 0 0; EvCdef 0 0; EvPost 0 0; EvPre 1 0; EvCdef 1 0]).
Proof. vm_compute. reflexivity. Qed.
