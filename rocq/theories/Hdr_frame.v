(** Round trip of the frame header. *)
From Verif Require Import Base Bits Tile_model Tile_spec Config_model Lrf_model Lrf_spec Sched_model Hdr_model Hdr_spec Hdr_proof.

(** ** Components *)
Lemma rt_delta_q d : -63 <= d <= 63 -> round_trips (w_delta_q d) s_delta_q d.
Proof.
  intros H. unfold w_delta_q, s_delta_q. eapply rt_bind; [apply rt_bit|]. destruct (Z.eqb_spec d 0) as [->|N]; cbn [negb w_if]; [apply rt_ret|].
  apply rt_assert; [lia|]. apply rt_signed; [lia|]. change (2 ^ (7 - 1)) with 64. lia.
Qed.

Definition quant_ok (cs : chroma) (k : coding) : Prop :=
  0 < k_q k < 256 /\ -63 <= nth 0 (k_dc k) 0 <= 63 /\
  (cs <> Cs400 -> nth 0 (k_ac k) 0 = 0 /\ -63 <= nth 1 (k_dc k) 0 <= 63 /\ -63 <= nth 2 (k_dc k) 0 <= 63 /\
     -63 <= nth 1 (k_ac k) 0 <= 63 /\ -63 <= nth 2 (k_ac k) 0 <= 63).
(** DeltaQYDc, DeltaQUDc, DeltaQUAc, DeltaQVDc, DeltaQVAc *)
Definition view_deltas (cs : chroma) (k : coding) : list Z :=
  nth 0 (k_dc k) 0 ::
  match cs with
  | Cs400 => [0; 0; 0; 0]
  | _ => [nth 1 (k_dc k) 0; nth 1 (k_ac k) 0; nth 2 (k_dc k) 0; nth 2 (k_ac k) 0]
  end.
Lemma quant_rt cs k : quant_ok cs k ->
  round_trips (w_quant cs k) (s_quant (chroma_eqb cs Cs400) (negb (chroma_eqb cs Cs400))) (k_q k, view_deltas cs k, false).
Proof.
  intros (Hq & H0 & Hc). unfold w_quant, s_quant. cbv zeta. apply rt_assert; [lia|].
  eapply rt_bind; [apply rt_bits; [lia|]; change (2 ^ 8) with 256; lia|]. eapply rt_bind; [apply rt_delta_q, H0|].
  apply (rt_bind _ _ _ _ (tl (view_deltas cs k))).
  - destruct (chroma_eqb cs Cs400) eqn:Em; cbn [negb w_if].
    { destruct cs; try discriminate. apply rt_ret. }
    assert (N : cs <> Cs400) by (intros ->; discriminate). destruct (Hc N) as (Ha & D1 & D2 & A1 & A2).
    apply rt_assert; [rewrite Ha; reflexivity|].
    replace (tl (view_deltas cs k)) with [nth 1 (k_dc k) 0; nth 1 (k_ac k) 0; nth 2 (k_dc k) 0; nth 2 (k_ac k) 0] by (destruct cs; try contradiction; reflexivity).
    eapply rt_bind; [apply rt_bit|]. eapply rt_bind; [apply rt_delta_q, D1|]. eapply rt_bind; [apply rt_delta_q, A1|].
    destruct (Z.eqb_spec (nth 1 (k_dc k) 0) (nth 2 (k_dc k) 0)) as [E1|E1], (Z.eqb_spec (nth 1 (k_ac k) 0) (nth 2 (k_ac k) 0)) as [E2|E2]; cbn [negb orb w_if];
      try (eapply rt_bind; [apply rt_delta_q, D2|]; eapply rt_last; [apply rt_delta_q, A2|reflexivity]).
    rewrite E1, E2. apply rt_ret.
  - eapply rt_last; [apply rt_bit|]. destruct cs; reflexivity.
Qed.

(** Segmentation *)
Definition feature_ok (signed : bool) (limit : Z) (x : bool * Z) : Prop :=
  fst x = true -> (if signed then - limit else 0) <= snd x <= limit.
Definition view_feature (x : bool * Z) : bool * Z := (fst x, if fst x then snd x else 0).
Lemma features_rt : forall bits signed limits l, length bits = length l -> length signed = length l -> length limits = length l ->
  Forall2 (fun b m => 0 <= b /\ m < 2 ^ b) bits limits ->
  (forall i s m x, nth_error signed i = Some s -> nth_error limits i = Some m -> nth_error l i = Some x -> feature_ok s m x) ->
  round_trips (w_features bits signed l) (s_features bits signed limits) (map view_feature l).
Proof.
  induction bits as [|b bits IH]; intros [|s signed] [|m limits] [|[on v] l] L1 L2 L3 F H; try discriminate; [apply rt_ret|].
  cbn [w_features s_features map]. inversion F as [|? ? ? ? (Hb & Hm) F']. subst.
  pose proof (H 0%nat s m (on, v) eq_refl eq_refl eq_refl) as H0. unfold feature_ok in H0. cbn [fst snd] in H0.
  eapply rt_bind; [apply rt_bit|]. apply (rt_bind _ _ _ _ (snd (view_feature (on, v)))).
  - unfold view_feature. cbn [fst snd]. destruct on; cbn [w_if]; [|apply rt_ret]. specialize (H0 eq_refl). destruct s.
    + replace (b + 1) with (1 + b) by lia. eapply rt_last; [apply rt_signed; [lia|]; replace (1 + b - 1) with b by lia; lia|]. cbv beta. f_equal. lia.
    + eapply rt_last; [apply rt_bits; lia|]. cbv beta. f_equal. lia.
  - eapply rt_last; [apply (IH signed limits l)|reflexivity]; cbn in *; try lia; try assumption.
    intros i. exact (H (S i)).
Qed.

Definition seg_row_ok (r : list (bool * Z)) : Prop :=
  length r = 8%nat /\ forall i s m x, nth_error Segmentation_Feature_Signed i = Some s -> nth_error Segmentation_Feature_Max i = Some m ->
    nth_error r i = Some x -> feature_ok s m x.
Definition seg_ok (l : seg_data) : Prop := length l = 8%nat /\ Forall seg_row_ok l.
Definition view_seg (l : seg_data) : seg_data := map (map view_feature) l.
Definition view_segmentation (on : bool) (primary : Z) (l : seg_data) : s_seg :=
  if on then SSegP true true false (primary =? 7) (view_seg l) else SSegP false false false false no_features.

Lemma seg_rt on primary data prev : (on = true -> seg_ok data) -> (on = true -> primary <> 7 -> prev = view_seg data) ->
  round_trips (w_segmentation on primary data) (s_segmentation primary prev) (view_segmentation on primary data).
Proof.
  intros Ok Hp. unfold w_segmentation, s_segmentation, view_segmentation. cbv zeta. eapply rt_bind; [apply rt_bit|].
  destruct on; cbn [negb w_if]; [|apply rt_ret]. destruct (Ok eq_refl) as (L8 & Fr).
  apply (rt_bind _ _ _ _ (true, false, primary =? 7)).
  - apply rt_ifn; [|intros ->; reflexivity]. intros E. rewrite E. eapply rt_bind; [apply rt_bit|]. cbv iota. eapply rt_bind; [apply rt_bit|]. eapply rt_last; [apply rt_bit|]. reflexivity.
  - cbv iota. destruct (Z.eqb_spec primary 7) as [E|E]; cbn [w_if].
    + eapply rt_last; [|reflexivity]. rewrite <- L8. apply rt_list. intros r Hr. rewrite Forall_forall in Fr. destruct (Fr r Hr) as (Lr & Hf).
      apply features_rt; try (rewrite Lr; reflexivity); [|exact Hf]. repeat constructor; lia.
    + rewrite (Hp eq_refl E). apply rt_ret.
Qed.

Definition seg_not_lossless (base : Z) (l : seg_data) : Prop :=
  Exists (fun r => match r with (true, d) :: _ => 1 - base <= d | _ => True end) l.
Lemma lossless_false on primary l base deltas : 0 < base < 256 -> (on = true -> seg_not_lossless base l) ->
  s_coded_lossless base deltas (view_segmentation on primary l) = false.
Proof.
  intros Hb H. unfold s_coded_lossless, view_segmentation. destruct on.
  - cbn [ss_features]. specialize (H eq_refl).
    assert (G : forall sg, ss_on sg = true -> forallb (fun f => (s_qidx base sg f =? 0) && forallb (Z.eqb 0) deltas) (view_seg l) = false); [|apply G; reflexivity].
    intros sg Hsg. unfold view_seg. induction H as [r l H|r l H IH]; cbn [map forallb].
    + apply andb_false_intro1. apply andb_false_intro1. unfold s_qidx. destruct r as [|[[|] d] r]; cbn [map view_feature fst snd]; rewrite ?Hsg; apply Z.eqb_neq; lia.
    + rewrite IH. apply andb_false_r.
  - cbn [ss_features]. change (no_features) with (repeat (false, 0) 8 :: repeat (repeat (false, 0) 8) 7). cbn [forallb].
    unfold s_qidx at 1. cbn [repeat]. destruct (Z.eqb_spec base 0); [lia|]. reflexivity.
Qed.

(** Deblocking *)
Definition levels_ok (cs : chroma) (k : coding) : Prop :=
  0 <= nth 0 (k_levels k) 0 < 64 /\ 0 <= nth 1 (k_levels k) 0 < 64 /\
  (cs <> Cs400 -> 0 <= nth 2 (k_levels k) 0 < 64 /\ 0 <= nth 3 (k_levels k) 0 < 64) /\ 0 <= k_sharp k < 8.
Definition view_levels (cs : chroma) (k : coding) : list Z :=
  let l i := nth i (k_levels k) 0 in
  l 0%nat :: l 1%nat :: (if negb (chroma_eqb cs Cs400) && negb ((l 0%nat =? 0) && (l 1%nat =? 0)) then [l 2%nat; l 3%nat] else []).
Lemma deblock_rt cs k : levels_ok cs k ->
  round_trips (w_deblock cs k) (s_loop_filter false false (chroma_eqb cs Cs400)) (Some (view_levels cs k, k_sharp k)).
Proof.
  intros (H0 & H1 & Hc & Hs). unfold w_deblock, s_loop_filter. cbv zeta. cbn [orb].
  apply rt_assert; [lia|]. eapply rt_bind; [apply rt_bits; [lia|]; change (2 ^ 6) with 64; lia|].
  apply rt_assert; [lia|]. eapply rt_bind; [apply rt_bits; [lia|]; change (2 ^ 6) with 64; lia|].
  assert (E : (0 <? nth 0 (k_levels k) 0) || (0 <? nth 1 (k_levels k) 0) = negb ((nth 0 (k_levels k) 0 =? 0) && (nth 1 (k_levels k) 0 =? 0))).
  { destruct (Z.ltb_spec 0 (nth 0 (k_levels k) 0)), (Z.ltb_spec 0 (nth 1 (k_levels k) 0)), (Z.eqb_spec (nth 0 (k_levels k) 0) 0), (Z.eqb_spec (nth 1 (k_levels k) 0) 0); cbn; lia || reflexivity. }
  rewrite E. apply (rt_bind _ _ _ _ (tl (tl (view_levels cs k)))).
  - unfold view_levels. cbv zeta. cbn [tl]. destruct (negb (chroma_eqb cs Cs400) && _) eqn:B; cbn [w_if]; [|apply rt_ret].
    assert (N : cs <> Cs400) by (intros ->; discriminate). destruct (Hc N) as (H2 & H3).
    apply rt_assert; [lia|]. eapply rt_bind; [apply rt_bits; [lia|]; change (2 ^ 6) with 64; lia|].
    apply rt_assert; [lia|]. eapply rt_last; [apply rt_bits; [lia|]; change (2 ^ 6) with 64; lia|reflexivity].
  - eapply rt_bind; [apply rt_bits; [lia|]; change (2 ^ 3) with 8; lia|]. eapply rt_last; [apply rt_bit|]. reflexivity.
Qed.

(** CDEF: a strength of six bits is a primary of four and a secondary of two *)
Definition view_strength (a : Z) : Z * Z := (a / 4, if a mod 4 =? 3 then 4 else a mod 4).

Lemma below_64 (P : Z -> Prop) : Forall P (map Z.of_nat (seq 0 64)) -> forall a, 0 <= a < 64 -> P a.
Proof.
  intros F a Ha. rewrite Forall_forall in F. apply F. apply in_map_iff. exists (Z.to_nat a). split; [lia|]. apply in_seq. lia.
Qed.
Lemma strength_rt a : 0 <= a < 64 -> round_trips (w_bits 6 a) s_strength (view_strength a).
Proof. revert a. apply below_64. repeat (constructor; [rt_now|]). constructor. Qed.

Definition cdef_ok (k : coding) : Prop :=
  3 <= k_damping k <= 6 /\ 0 <= k_cdef_bits k < 4 /\ length (k_cdef_y k) = 8%nat /\ length (k_cdef_uv k) = 8%nat /\
  Forall (fun a => 0 <= a < 64) (k_cdef_y k) /\ Forall (fun a => 0 <= a < 64) (k_cdef_uv k).
Definition view_cdef (on mono : bool) (k : coding) : option (Z * Z * list ((Z * Z) * option (Z * Z))) :=
  if on then
    Some (k_damping k, k_cdef_bits k,
      map (fun p => (view_strength (fst p), if mono then None else Some (view_strength (snd p))))
        (firstn (Z.to_nat (2 ^ k_cdef_bits k)) (combine (k_cdef_y k) (k_cdef_uv k))))
  else None.
Lemma strengths_rt mono : forall n y uv, (n <= length y)%nat -> (n <= length uv)%nat -> Forall (fun a => 0 <= a < 64) y -> Forall (fun a => 0 <= a < 64) uv ->
  round_trips (w_strengths mono n y uv)
    (p_repeat n (y <- s_strength ;; uv <- (if mono then p_ret None else x <- s_strength ;; p_ret (Some x)) ;; p_ret (y, uv)))
    (map (fun p => (view_strength (fst p), if mono then None else Some (view_strength (snd p)))) (firstn n (combine y uv))).
Proof.
  induction n as [|n IH]; intros [|a y] [|b uv] L1 L2 Fy Fu; cbn [length] in *; try lia; try apply rt_ret.
  cbn [w_strengths p_repeat combine firstn map fst snd]. inversion Fy as [|? ? Ha Fy']. inversion Fu as [|? ? Hb Fu']. subst.
  apply rt_assert; [lia|]. apply rt_assert; [lia|]. apply rt_flat. eapply rt_bind; [apply strength_rt, Ha|].
  apply rt_flat. apply (rt_bind _ _ _ _ (if mono then None else Some (view_strength b))).
  - destruct mono; cbn [negb w_if]; [apply rt_ret|]. eapply rt_last; [apply strength_rt, Hb|reflexivity].
  - apply rt_pure. eapply rt_last; [apply IH; try assumption; lia|reflexivity].
Qed.
Lemma cdef_rt s f mono : cdef_ok (f_k f) -> f_intrabc f = false -> mono = chroma_eqb (sq_chroma s) Cs400 ->
  round_trips (w_cdef s f) (s_cdef false false (sq_cdef s) mono) (view_cdef (sq_cdef s) mono (f_k f)).
Proof.
  intros (Hd & Hb & Ly & Lu & Fy & Fu) Ei ->. unfold w_cdef, s_cdef, view_cdef. cbv zeta. rewrite Ei. rewrite andb_true_r. cbn [orb].
  destruct (sq_cdef s); cbn [negb w_if]; [|apply rt_ret].
  apply rt_assert; [lia|]. apply rt_assert; [lia|]. eapply rt_bind; [apply rt_bits; [lia|]; change (2 ^ 2) with 4; lia|].
  apply rt_assert; [lia|]. eapply rt_bind; [apply rt_bits; [lia|]; change (2 ^ 2) with 4; lia|].
  assert (N8 : (Z.to_nat (2 ^ k_cdef_bits (f_k f)) <= 8)%nat).
  { assert (2 ^ k_cdef_bits (f_k f) <= 2 ^ 3) by (apply Z.pow_le_mono_r; lia). change (2 ^ 3) with 8 in H. lia. }
  eapply rt_last; [apply strengths_rt; try assumption; lia|]. cbv beta. replace (k_damping (f_k f) - 3 + 3) with (k_damping (f_k f)) by lia. reflexivity.
Qed.

(** Loop restoration *)
Definition lr_ok (cs : chroma) (k : coding) : Prop :=
  zlen (k_lr_types k) = (if chroma_eqb cs Cs400 then 1 else 3) /\ Forall (fun x => 0 <= x <= 3) (k_lr_types k) /\
  (exists e, 6 <= e <= 8 /\ k_lr_y k = 2 ^ e) /\
  (k_lr_uv k = k_lr_y k \/ (cs = Cs420 /\ 2 * k_lr_uv k = k_lr_y k)).
Definition view_lr (on : bool) (k : coding) : option (list Z * option (Z * Z)) :=
  if on then
    Some (k_lr_types k,
      if existsb (fun t => negb (t =? 0)) (k_lr_types k) then
        Some (k_lr_y k, if existsb (fun t => negb (t =? 0)) (tl (k_lr_types k)) then k_lr_uv k else k_lr_y k)
      else None)
  else None.
Lemma lr_rt on cs k : lr_ok cs k ->
  round_trips (w_frame_lrf on false false (chroma_eqb cs Cs420) (k_lr_types k) (k_lr_y k) (k_lr_uv k))
    (s_lr_params on false false (match cs with Cs444 => false | _ => true end) (match cs with Cs420 | Cs400 => true | _ => false end)
       (if chroma_eqb cs Cs400 then 1 else 3))
    (view_lr on k).
Proof.
  intros (Ln & Ft & (e & He & Ey) & Eu). unfold w_frame_lrf, s_lr_params, view_lr. cbn [orb negb]. rewrite andb_true_r.
  destruct on; cbn [negb w_if]; [|apply rt_ret].
  eapply rt_bind.
  { rewrite <- Ln. replace (Z.to_nat (zlen (k_lr_types k))) with (length (k_lr_types k)) by (unfold zlen; lia).
    pose proof (rt_list (fun t => w_bits 2 t) (p_f 2) (fun x => x) (k_lr_types k)) as R. rewrite map_id in R. apply R.
    intros x Hin. rewrite Forall_forall in Ft. specialize (Ft x Hin). apply rt_bits; [lia|]. change (2 ^ 2) with 4. lia. }
  cbv zeta. destruct (existsb _ (k_lr_types k)) eqn:Eo; cbn [negb w_if]; [|apply rt_ret].
  set (ch := existsb _ (tl (k_lr_types k))).
  rewrite <- w_seq_assoc. apply (rt_bind _ _ _ _ (e - 6)).
  { assert (C : e = 6 \/ e = 7 \/ e = 8) by lia. destruct C as [-> |[-> | ->]]; rewrite Ey; rt_now. }
  assert (Sz : Z.shiftr 256 (2 - (e - 6)) = k_lr_y k).
  { rewrite Ey. assert (C : e = 6 \/ e = 7 \/ e = 8) by lia. destruct C as [-> |[-> | ->]]; reflexivity. }
  rewrite Sz.
  assert (M : chroma_eqb cs Cs400 = true -> ch = false).
  { intros Em. rewrite Em in Ln. unfold ch. destruct (k_lr_types k) as [|a [|b l]]; try reflexivity. rewrite !zlen_cons in Ln. pose proof (zlen_nonneg _ l). lia. }
  assert (Ss : (match cs with Cs444 => false | _ => true end) && (match cs with Cs420 | Cs400 => true | _ => false end) && ch = ch && chroma_eqb cs Cs420).
  { destruct cs; cbn; try (now rewrite andb_comm); try reflexivity; try (symmetry; apply andb_false_r). rewrite (M eq_refl). reflexivity. }
  rewrite Ss. destruct ch; cbn [andb].
  - destruct (chroma_eqb cs Cs420) eqn:E4; cbn [w_if].
    + eapply rt_last; [apply rt_bits; [lia|]; destruct (k_lr_uv k <? k_lr_y k); cbn [b2z]; lia|]. cbv beta.
      assert (Uv : Z.shiftr (k_lr_y k) (b2z (k_lr_uv k <? k_lr_y k)) = k_lr_uv k); [|rewrite Uv; reflexivity].
      destruct (Z.ltb_spec (k_lr_uv k) (k_lr_y k)) as [L|L]; cbn [b2z].
      * destruct Eu as [Eu|(_ & Eu)]; [lia|]. rewrite <- Eu. rewrite Z.shiftr_div_pow2 by lia. change (2 ^ 1) with 2. rewrite Z.mul_comm, Z.div_mul by lia. reflexivity.
      * rewrite Z.shiftr_0_r. destruct Eu as [Eu|(_ & Eu)]; [symmetry; exact Eu|]. pose proof (Z.pow_pos_nonneg 2 e ltac:(lia) ltac:(lia)). lia.
    + apply rt_pure. rewrite Z.shiftr_0_r. destruct Eu as [Eu|(Ec & _)]; [rewrite Eu; apply rt_ret|]. rewrite Ec in E4. discriminate.
  - cbn [w_if]. apply rt_pure. rewrite Z.shiftr_0_r. apply rt_ret.
Qed.

(** Film grain *)
(** The arrays of GrainTableSegment hold at most 14 and 10 points and 24 and
    25 coefficients; a table is coherent if it has what its lag needs, and has
    no chroma points where none can be sent. *)
Definition point_ok (p : Z * Z) : Prop := 0 <= fst p < 256 /\ 0 <= snd p < 256.
Definition i8_ok (x : Z) : Prop := -128 <= x < 128.
Definition no_chroma_points (cs : chroma) (g : grain) : bool :=
  match cs with Cs400 => true | Cs420 => g_cfl g || negb (nonempty (g_y g)) | _ => g_cfl g end.
Record grain_ok (cs : chroma) (g : grain) : Prop := {
  go_seed : 0 <= g_seed g < 65536; go_y : zlen (g_y g) <= 14; go_cb : zlen (g_cb g) <= 10; go_cr : zlen (g_cr g) <= 10;
  go_py : Forall point_ok (g_y g); go_pcb : Forall point_ok (g_cb g); go_pcr : Forall point_ok (g_cr g);
  go_scaling : 8 <= g_scaling_shift g <= 11; go_lag : 0 <= g_lag g <= 3; go_arshift : 6 <= g_ar_shift g <= 9; go_scale : 0 <= g_scale_shift g <= 3;
  go_ay : Forall i8_ok (g_ar_y g); go_acb : Forall i8_ok (g_ar_cb g); go_acr : Forall i8_ok (g_ar_cr g);
  go_ny : 2 * g_lag g * (g_lag g + 1) <= zlen (g_ar_y g);
  go_ncb : 2 * g_lag g * (g_lag g + 1) + 1 <= zlen (g_ar_cb g); go_ncr : 2 * g_lag g * (g_lag g + 1) + 1 <= zlen (g_ar_cr g);
  go_m1 : 0 <= g_cb_mult g < 256; go_m2 : 0 <= g_cb_luma g < 256; go_m3 : 0 <= g_cb_off g < 512;
  go_m4 : 0 <= g_cr_mult g < 256; go_m5 : 0 <= g_cr_luma g < 256; go_m6 : 0 <= g_cr_off g < 512;
  go_chroma : no_chroma_points cs g = true -> g_cb g = [] /\ g_cr g = []
}.
Definition view_grain (cs : chroma) (full : bool) (g : grain) : s_grain :=
  let cfl := negb (chroma_eqb cs Cs400) && g_cfl g in
  let luma := 2 * g_lag g * (g_lag g + 1) in
  let chr := if nonempty (g_y g) then luma + 1 else luma in
  {| sg_seed := g_seed g; sg_y := g_y g; sg_cfl := cfl; sg_cb := g_cb g; sg_cr := g_cr g; sg_scaling := g_scaling_shift g; sg_lag := g_lag g;
     sg_ar_y := if nonempty (g_y g) then firstn (Z.to_nat luma) (g_ar_y g) else [];
     sg_ar_cb := if cfl || nonempty (g_cb g) then firstn (Z.to_nat chr) (g_ar_cb g) else [];
     sg_ar_cr := if cfl || nonempty (g_cr g) then firstn (Z.to_nat chr) (g_ar_cr g) else [];
     sg_ar_shift := g_ar_shift g; sg_scale_shift := g_scale_shift g;
     sg_cb_mult := if nonempty (g_cb g) then Some (g_cb_mult g, g_cb_luma g, g_cb_off g) else None;
     sg_cr_mult := if nonempty (g_cr g) then Some (g_cr_mult g, g_cr_luma g, g_cr_off g) else None;
     sg_overlap := g_overlap g; sg_clip := negb full |}.

Lemma nonempty_zlen {A} (l : list A) : (0 <? zlen l) = nonempty l.
Proof. destruct l; [reflexivity|]. rewrite zlen_cons. pose proof (zlen_nonneg _ l). cbn [nonempty]. apply Z.ltb_lt. lia. Qed.
Lemma empty_zlen {A} (l : list A) : (zlen l =? 0) = negb (nonempty l).
Proof. destruct l; [reflexivity|]. rewrite zlen_cons. pose proof (zlen_nonneg _ l). cbn [nonempty negb]. apply Z.eqb_neq. lia. Qed.

Lemma points_rt limit l : zlen l <= limit -> limit < 16 -> Forall point_ok l -> round_trips (w_points l) (s_points limit) l.
Proof.
  intros L H16 F. unfold w_points, s_points. pose proof (zlen_nonneg _ l). unfold u8. rewrite Z.mod_small by lia.
  eapply rt_bind; [apply rt_bits; [lia|]; change (2 ^ 4) with 16; lia|]. destruct (Z.ltb_spec limit (zlen l)); [lia|].
  replace (Z.to_nat (zlen l)) with (length l) by (unfold zlen; lia).
  pose proof (rt_list (fun p : Z * Z => w_bits 8 (fst p) >>> w_bits 8 (snd p)) (a <- p_f 8 ;; b <- p_f 8 ;; p_ret (a, b)) (fun p => p) l) as R.
  rewrite map_id in R. apply R. intros [x y] Hin. rewrite Forall_forall in F. destruct (F _ Hin) as (Hx & Hy). cbn [fst snd] in *.
  eapply rt_bind; [apply rt_bits; [lia|exact Hx]|]. eapply rt_last; [apply rt_bits; [lia|exact Hy]|reflexivity].
Qed.
Lemma coeffs_rt : forall n l, (n <= length l)%nat -> Forall i8_ok l ->
  round_trips (w_coeffs n l) (p_repeat n (v <- p_f 8 ;; p_ret (v - 128))) (firstn n l).
Proof.
  induction n as [|n IH]; intros l L F; [apply rt_ret|]. destruct l as [|x l]; [cbn in L; lia|]. cbn [w_coeffs p_repeat firstn].
  pose proof (Forall_inv F) as Hx. unfold i8_ok in Hx. unfold u8. rewrite Z.mod_small by lia.
  apply rt_flat. eapply rt_bind; [apply rt_bits; [lia|]; change (2 ^ 8) with 256; lia|]. apply rt_pure. replace (x + 128 - 128) with x by lia.
  eapply rt_last; [apply IH; [cbn in L; lia|exact (Forall_inv_tail F)]|reflexivity].
Qed.
Lemma coeffs_rt' on n l : 0 <= n <= zlen l -> Forall i8_ok l ->
  round_trips (w_if on (w_coeffs (Z.to_nat n) l)) (s_coeffs on n) (if on then firstn (Z.to_nat n) l else []).
Proof. intros H F. destruct on; cbn [w_if s_coeffs]; [|apply rt_ret]. apply coeffs_rt; [|exact F]. unfold zlen in H. lia. Qed.
Lemma mults_rt on a b c : 0 <= a < 256 -> 0 <= b < 256 -> 0 <= c < 512 ->
  round_trips (w_if on (w_bits 8 a >>> w_bits 8 b >>> w_bits 9 c)) (s_mults on) (if on then Some (a, b, c) else None).
Proof.
  intros. destruct on; cbn [w_if s_mults]; [|apply rt_ret].
  eapply rt_bind; [apply rt_bits; [lia|]; change (2 ^ 8) with 256; lia|]. eapply rt_bind; [apply rt_bits; [lia|]; change (2 ^ 8) with 256; lia|].
  eapply rt_last; [apply rt_bits; [lia|]; change (2 ^ 9) with 512; lia|reflexivity].
Qed.

Lemma grain_rt q type show showable cs full o :
  q_grain q = true -> (show = true \/ showable = true) -> q_mono q = chroma_eqb cs Cs400 ->
  q_ssx q = match cs with Cs444 => false | _ => true end -> q_ssy q = match cs with Cs420 | Cs400 => true | _ => false end ->
  match o with Some g => grain_ok cs g | None => True end ->
  round_trips (w_film_grain (type =? INTER_FRAME) cs full o) (s_film_grain q type show showable) (option_map (view_grain cs full) o).
Proof.
  intros Eg Es Em Ex Ey Ok. unfold s_film_grain. rewrite Eg. cbn [negb orb].
  replace (negb show && negb showable) with false by (destruct Es as [-> | ->]; [|destruct show]; reflexivity).
  destruct o as [g|]; cbn [option_map w_film_grain].
  2: { eapply rt_last; [apply rt_bit|reflexivity]. }
  cbv zeta. eapply rt_bind; [apply rt_bit|]. cbn [negb]. eapply rt_bind; [apply rt_bits; [lia|]; exact (go_seed _ _ Ok)|].
  apply (rt_bind _ _ _ _ true). { apply rt_if; [|reflexivity]. intros _. apply rt_bit. }
  cbn [negb]. eapply rt_bind; [apply (points_rt 14); [exact (go_y _ _ Ok)|reflexivity|exact (go_py _ _ Ok)]|].
  rewrite Em. set (mono := chroma_eqb cs Cs400).
  apply (rt_bind _ _ _ _ (negb mono && g_cfl g)). { destruct mono; cbn [negb w_if andb]; [apply rt_ret|apply rt_bit]. }
  set (cfl := negb mono && g_cfl g).
  assert (Ss : q_ssx q && q_ssy q && (zlen (g_y g) =? 0) && negb mono = chroma_eqb cs Cs420 && negb (nonempty (g_y g))).
  { rewrite Ex, Ey, empty_zlen. unfold mono. destruct cs; cbn [chroma_eqb andb negb]; rewrite ?andb_true_r, ?andb_false_r; reflexivity. }
  assert (Cond : mono || cfl || (q_ssx q && q_ssy q && (zlen (g_y g) =? 0)) = mono || cfl || (chroma_eqb cs Cs420 && negb (nonempty (g_y g)))).
  { rewrite <- Ss. destruct mono; cbn [orb negb]; [reflexivity|]. now rewrite andb_true_r. }
  rewrite Cond.
  apply (rt_bind _ _ _ _ (g_cb g, g_cr g)).
  { destruct (mono || cfl || (chroma_eqb cs Cs420 && negb (nonempty (g_y g)))) eqn:C; cbn [negb w_if].
    - destruct (go_chroma _ _ Ok) as (E1 & E2); [|rewrite E1, E2; apply rt_ret].
      unfold no_chroma_points. unfold cfl, mono in C. destruct cs; cbn in C; rewrite ?orb_false_r in C; exact C.
    - eapply rt_bind; [apply (points_rt 10); [exact (go_cb _ _ Ok)|reflexivity|exact (go_pcb _ _ Ok)]|].
      eapply rt_last; [apply (points_rt 10); [exact (go_cr _ _ Ok)|reflexivity|exact (go_pcr _ _ Ok)]|reflexivity]. }
  clear Ss Cond Ex Ey Es Em Eg.
  pose proof (go_scaling _ _ Ok). pose proof (go_lag _ _ Ok). pose proof (go_arshift _ _ Ok). pose proof (go_scale _ _ Ok).
  eapply rt_bind; [apply rt_bits; [lia|]; change (2 ^ 2) with 4; lia|]. eapply rt_bind; [apply rt_bits; [lia|]; change (2 ^ 2) with 4; lia|].
  cbn [fst snd]. rewrite !nonempty_zlen.
  assert (Np : 0 <= 2 * g_lag g * (g_lag g + 1)) by nia.
  pose proof (go_ny _ _ Ok). pose proof (go_ncb _ _ Ok). pose proof (go_ncr _ _ Ok).
  set (luma := 2 * g_lag g * (g_lag g + 1)) in *. set (chr := if nonempty (g_y g) then luma + 1 else luma).
  assert (Hc : 0 <= chr <= luma + 1) by (unfold chr; destruct (nonempty (g_y g)); lia).
  eapply rt_bind; [apply coeffs_rt'; [lia|exact (go_ay _ _ Ok)]|].
  eapply rt_bind; [apply coeffs_rt'; [lia|exact (go_acb _ _ Ok)]|].
  eapply rt_bind; [apply coeffs_rt'; [lia|exact (go_acr _ _ Ok)]|].
  eapply rt_bind; [apply rt_bits; [lia|]; change (2 ^ 2) with 4; lia|]. eapply rt_bind; [apply rt_bits; [lia|]; change (2 ^ 2) with 4; lia|].
  eapply rt_bind; [apply mults_rt; [exact (go_m1 _ _ Ok)|exact (go_m2 _ _ Ok)|exact (go_m3 _ _ Ok)]|].
  eapply rt_bind; [apply mults_rt; [exact (go_m4 _ _ Ok)|exact (go_m5 _ _ Ok)|exact (go_m6 _ _ Ok)]|].
  eapply rt_bind; [apply rt_bit|]. eapply rt_last; [apply rt_bit|]. cbv beta. f_equal. f_equal. unfold view_grain.
  f_equal; lia.
Qed.
