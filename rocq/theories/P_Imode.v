(** C60: the intra mode of a block, its angle deltas and its chroma-from-luma alphas are read back. *)
From Verif Require Import Sym Imode_model Imode_spec.
Open Scope Z_scope.
Open Scope list_scope.

(** One frame seen by the encoder and by the decoder *)
Definition same_params (f : fip) (p : params) : Prop :=
  has_inter f = negb (FrameIsIntra p) /\ cs400 f = mono_chrome p /\
  (cs400 f = false -> xdec f = (if subsampling_x p then 1 else 0) /\ ydec f = (if subsampling_y p then 1 else 0)) /\
  (0 <? screen f) = allow_screen_content_tools p /\ filt f = enable_filter_intra p.

(** A choice of modes open to the encoder: the sizes of the partitions it uses, intra modes,
    chroma from luma only up to 32x32 and with an alpha, angle deltas only where they are coded. *)
Definition angle_ok (s m a : Z) : Prop :=
  -3 <= a <= 3 /\ (a <> 0 -> 1 <= m <= 8 /\ 8 <= Block_Width s /\ 8 <= Block_Height s).
Definition choice_ok (s m ay uv auv u v : Z) : Prop :=
  0 <= s <= 15 /\ 0 <= m <= 12 /\ 0 <= uv <= 13 /\ angle_ok s m ay /\ angle_ok s uv auv /\
  (uv = 13 -> Block_Width s <= 32 /\ Block_Height s <= 32 /\ -16 <= u <= 16 /\ -16 <= v <= 16 /\ (u <> 0 \/ v <> 0)).

Lemma reads_wif {A} (c : bool) (r : reader A) w d v :
  (c = true -> reads r w v) -> (c = false -> v = d) -> reads (if c then r else ret d) (wif c w) v.
Proof. destruct c; cbn; intros H1 H2; [now apply H1|]. rewrite H2 by reflexivity. apply reads_ret. Qed.
Lemma reads_wif' {A} (b c : bool) (r : reader A) w d v :
  b = c -> (c = true -> reads r w v) -> (c = false -> v = d) -> reads (if c then r else ret d) (wif b w) v.
Proof. intros -> . apply reads_wif. Qed.
Lemma reads_map {A B} (r : reader A) (f : A -> B) w a b : reads r w a -> f a = b -> reads (rd x <- r; ret (f x)) w b.
Proof. intros H <-. now apply reads_last. Qed.

Ltac sizes s H :=
  let D := fresh in
  assert (D : s = 0 \/ s = 1 \/ s = 2 \/ s = 3 \/ s = 4 \/ s = 5 \/ s = 6 \/ s = 7 \/ s = 8 \/ s = 9 \/ s = 10 \/
              s = 11 \/ s = 12 \/ s = 13 \/ s = 14 \/ s = 15) by lia; clear H;
  repeat (destruct D as [D | D]); subst s.

Lemma ge8_ok s : 0 <= s <= 15 -> bs_ge s 3 = (3 <=? s).
Proof. intros H. sizes s H; reflexivity. Qed.
Lemma cfl_ok s : 0 <= s <= 15 -> cfl_allowed s = cflAllowed s.
Proof. intros H. sizes s H; reflexivity. Qed.
Lemma width_ok s : 0 <= s <= 15 -> width s = Block_Width s.
Proof. intros H. sizes s H; reflexivity. Qed.
Lemma height_ok s : 0 <= s <= 15 -> height s = Block_Height s.
Proof. intros H. sizes s H; reflexivity. Qed.
Lemma log_ok s : 0 <= s <= 15 ->
  width_log2 s - 2 + (height_log2 s - 2) - 2 = at_ Mi_Width_Log2 s + at_ Mi_Height_Log2 s - 2.
Proof. intros H. sizes s H; reflexivity. Qed.
Lemma ge8_dim s : 0 <= s <= 15 -> 8 <= Block_Width s -> 8 <= Block_Height s -> (3 <=? s) = true.
Proof. intros H. sizes s H; cbv; congruence. Qed.

Lemma land1 x : (Z.land x 1 =? 1) = negb (Z.even x).
Proof.
  change 1 with (Z.ones 1) at 1. rewrite Z.land_ones by lia. change (2 ^ 1) with 2.
  rewrite Zmod_even. destruct (Z.even x); reflexivity.
Qed.
Lemma wide_ok s : 0 <= s <= 15 -> (Z.land (width_mi s) 1 =? 0) = negb (at_ Num_4x4_Blocks_Wide s =? 1).
Proof. intros H. sizes s H; reflexivity. Qed.
Lemma high_ok s : 0 <= s <= 15 -> (Z.land (height_mi s) 1 =? 0) = negb (at_ Num_4x4_Blocks_High s =? 1).
Proof. intros H. sizes s H; reflexivity. Qed.

Lemma chroma_ok f p r0 c0 x y s : same_params f p -> Z.even r0 = true -> Z.even c0 = true -> 0 <= s <= 15 ->
  has_chroma x y s (xdec f) (ydec f) (cs400 f) = HasChroma p (r0 + y) (c0 + x) s.
Proof.
  intros (_ & E & S & _ & _) R C H. unfold has_chroma, HasChroma. rewrite <- E. destruct (cs400 f).
  { destruct (_ && _ && _)%bool; [reflexivity|]. destruct (_ && _ && _)%bool; reflexivity. }
  destruct (S eq_refl) as [-> ->].
  rewrite !Z.even_add, R, C, !land1, wide_ok, high_ok by assumption.
  destruct (Z.even x), (Z.even y), (at_ Num_4x4_Blocks_Wide s =? 1), (at_ Num_4x4_Blocks_High s =? 1),
    (subsampling_x p), (subsampling_y p); reflexivity.
Qed.

Lemma angle_reads s m a : 0 <= s <= 15 -> angle_ok s m a ->
  reads (angle_info s m) (wif (is_directional m && bs_ge s 3) (write_angle_delta a m)) a.
Proof.
  intros Hs [Ha Hz]. unfold angle_info. change BLOCK_8X8 with 3. rewrite ge8_ok by assumption.
  unfold is_directional, is_directional_mode. rewrite (andb_comm (_ && _) (3 <=? s)).
  apply reads_wif.
  - intros _. eapply reads_map; [apply reads_sym; lia | lia].
  - intros E. destruct (Z.eq_dec a 0) as [|N]; [assumption|]. destruct (Hz N) as (M & W & T).
    rewrite (ge8_dim s) in E by assumption. lia.
Qed.

Lemma sgn_cases u : -16 <= u <= 16 ->
  (u = 0 /\ sign_from_alpha u = 0 /\ Z.abs u mod 256 = 0) \/
  (u < 0 /\ sign_from_alpha u = 1 /\ Z.abs u mod 256 = - u) \/
  (0 < u /\ sign_from_alpha u = 2 /\ Z.abs u mod 256 = u).
Proof.
  intros H. rewrite Z.mod_small by lia. unfold sign_from_alpha.
  destruct (Z.lt_trichotomy u 0) as [L | [L | L]].
  - right; left. rewrite Z.sgn_neg by assumption. split; [assumption|]. split; [reflexivity | lia].
  - left. subst. auto.
  - right; right. rewrite Z.sgn_pos by assumption. split; [assumption|]. split; [reflexivity | lia].
Qed.

Lemma one_alpha_ok u ot : -16 <= u <= 16 ->
  reads (one_alpha (sign_from_alpha u) ot)
    (wif (negb (sign_from_alpha u =? 0)) (wguard (negb (Z.abs u mod 256 =? 0))
       (wsym "CflAlpha" [(sign_from_alpha u - 1) * 3 + ot] 16 (Z.abs u mod 256 - 1)))) u.
Proof.
  intros H. destruct (sgn_cases u H) as [(U & -> & ->) | [(U & -> & ->) | (U & -> & ->)]]; unfold one_alpha.
  - subst. apply reads_ret.
  - replace (- u =? 0) with false by lia. change (1 =? 0) with false. change (1 =? 1) with true. cbn [negb wif wguard].
    eapply reads_map; [apply reads_sym; lia | lia].
  - replace (u =? 0) with false by lia. change (2 =? 0) with false. change (2 =? 1) with false. cbn [negb wif wguard].
    eapply reads_map; [apply reads_sym; lia | lia].
Qed.

(** The alphas: no assert fails, the decoder reads them, and they are the ones the encoder predicts with. *)
Theorem C60_cfl_alphas u v : -16 <= u <= 16 -> -16 <= v <= 16 -> u <> 0 \/ v <> 0 ->
  reads read_cfl_alphas (write_cfl_alphas (from_alpha u v)) (u, v) /\
  alpha (from_alpha u v) 0 = u /\ alpha (from_alpha u v) 1 = v.
Proof.
  intros Hu Hv N.
  unfold write_cfl_alphas, write_alpha, read_cfl_alphas, alpha, joint_sign, context, index, csign, scale, from_alpha.
  change (1 =? 0) with false. change (0 =? 0) with true. change (1 - 0) with 1. change (1 - 1) with 0.
  change (1 =? 0) with false. change (0 =? 0) with true. cbn [sign0 sign1 scale0 scale1].
  assert (Su : 0 <= sign_from_alpha u <= 2 /\ (sign_from_alpha u = 0 -> u = 0)
               /\ cfl_sign_value (sign_from_alpha u) * (Z.abs u mod 256) = u).
  { destruct (sgn_cases u Hu) as [(U & -> & ->) | [(U & -> & ->) | (U & -> & ->)]];
      change (cfl_sign_value 0) with 0; change (cfl_sign_value 1) with (-1); change (cfl_sign_value 2) with 1; lia. }
  assert (Sv : 0 <= sign_from_alpha v <= 2 /\ (sign_from_alpha v = 0 -> v = 0)
               /\ cfl_sign_value (sign_from_alpha v) * (Z.abs v mod 256) = v).
  { destruct (sgn_cases v Hv) as [(U & -> & ->) | [(U & -> & ->) | (U & -> & ->)]];
      change (cfl_sign_value 0) with 0; change (cfl_sign_value 1) with (-1); change (cfl_sign_value 2) with 1; lia. }
  destruct Su as (Su & Zu & Au), Sv as (Sv & Zv & Av). split; [|now split].
  pose proof (one_alpha_ok u (sign_from_alpha v) Hu) as Ou. pose proof (one_alpha_ok v (sign_from_alpha u) Hv) as Ov.
  set (a := sign_from_alpha u) in *. set (b := sign_from_alpha v) in *.
  replace (negb (a =? 0) || negb (b =? 0))%bool with true by lia. cbn [wguard].
  eapply reads_bind; [apply reads_sym; lia|]. cbv beta.
  replace ((a * 3 + b - 1 + 1) / 3) with a by (clear - Su Sv; dlia).
  replace ((a * 3 + b - 1 + 1) mod 3) with b by (clear - Su Sv; dlia).
  eapply reads_bind; [exact Ou|]. eapply reads_map; [exact Ov | reflexivity].
Qed.

Lemma ctx_ok i : 0 <= i <= 12 -> nth_ intra_mode_context i = Some (at_ Intra_Mode_Context i).
Proof.
  intros H. unfold nth_. change (zlen intra_mode_context) with 13.
  replace (0 <=? i) with true by lia. replace (i <? 13) with true by lia. reflexivity.
Qed.

(** For every frame, tile, position and size of block, and every choice of modes: the writer
    does not panic, and the decoder reads exactly the choice (chroma only where there is
    chroma), no palette and no filter intra, and stops where the writer stopped.  In frames
    without inter prediction, the modes above and to the left are those the decoder has. *)
Theorem C60_intra_modes f p r0 c0 x y s modes YModes m ay uv auv u v cfl :
  same_params f p -> Z.even r0 = true -> Z.even c0 = true -> 0 <= x -> 0 <= y ->
  (FrameIsIntra p = true -> forall j i, 0 <= j <= y -> 0 <= i <= x ->
     modes j i = YModes (r0 + j) (c0 + i) /\ 0 <= modes j i <= 12) ->
  choice_ok s m ay uv auv u v -> (uv = 13 -> cfl = from_alpha u v) ->
  reads (intra_mode_info p r0 c0 (r0 + y) (c0 + x) s YModes)
    (write_intra_info f modes x y s m ay uv auv cfl)
    (mkM m ay (if HasChroma p (r0 + y) (c0 + x) s then Some (uv, (if uv =? 13 then (u, v) else (0, 0)), auv) else None)
       (0, 0) 0).
Proof.
  intros P R C Hx Hy G (Hs & Hm & Huv & Ay & Auv & Cf) Ec.
  unfold intra_mode_info, write_intra_info.
  rewrite (chroma_ok f p r0 c0) by assumption.
  pose proof (width_ok s Hs) as W. pose proof (height_ok s Hs) as H.
  destruct P as (P1 & P2 & P3 & P4 & P5).
  set (hc := HasChroma p (r0 + y) (c0 + x) s).
  eapply reads_bind.
  { instantiate (1 := m). unfold y_mode. rewrite P1. destruct (FrameIsIntra p); cbn [negb].
    - unfold write_intra_mode_kf, AvailU, AvailL.
      replace (r0 <=? r0 + y - 1) with (0 <? y) by lia. replace (c0 <=? c0 + x - 1) with (0 <? x) by lia.
      assert (A1 : 0 <= (if 0 <? y then modes (y - 1) x else 0) <= 12).
      { destruct (0 <? y) eqn:E; [|lia]. apply G; [reflexivity | lia | lia]. }
      assert (A2 : 0 <= (if 0 <? x then modes y (x - 1) else 0) <= 12).
      { destruct (0 <? x) eqn:E; [|lia]. apply G; [reflexivity | lia | lia]. }
      rewrite !ctx_ok by assumption.
      replace (if 0 <? y then YModes (r0 + y - 1) (c0 + x) else 0) with (if 0 <? y then modes (y - 1) x else 0).
      2: { destruct (0 <? y) eqn:E; [|reflexivity]. replace (r0 + y - 1) with (r0 + (y - 1)) by lia.
           apply G; [reflexivity | lia | lia]. }
      replace (if 0 <? x then YModes (r0 + y) (c0 + x - 1) else 0) with (if 0 <? x then modes y (x - 1) else 0).
      2: { destruct (0 <? x) eqn:E; [|reflexivity]. replace (c0 + x - 1) with (c0 + (x - 1)) by lia.
           apply G; [reflexivity | lia | lia]. }
      apply reads_sym. lia.
    - apply reads_sym. lia. }
  eapply reads_bind; [now apply angle_reads|].
  eapply reads_bind.
  { instantiate (1 := if hc then Some (uv, (if uv =? 13 then (u, v) else (0, 0)), auv) else None).
    apply (reads_wif hc); [intros E | intros E; rewrite E; reflexivity]. rewrite E.
    eapply reads_map; [|reflexivity]. unfold uv_info, write_intra_uv_mode.
    replace (m <? 13) with true by lia. cbn [wguard]. rewrite cfl_ok by assumption.
    eapply reads_bind.
    { instantiate (1 := uv). destruct (cflAllowed s) eqn:K; [apply reads_sym; lia|].
      apply reads_sym. destruct (Z.eq_dec uv 13) as [->|]; [|lia].
      destruct (Cf eq_refl) as (? & ? & _). unfold cflAllowed in K. lia. }
    eapply reads_bind.
    { instantiate (1 := if uv =? 13 then (u, v) else (0, 0)). change UV_CFL_PRED with 13.
      apply reads_wif; intros K; rewrite K; [|reflexivity].
      apply Z.eqb_eq in K. destruct (Cf K) as (B1 & B2 & B3 & B4 & B5).
      replace (cflAllowed s) with true by (unfold cflAllowed; lia). cbn [wguard].
      rewrite (Ec K). now apply C60_cfl_alphas. }
    eapply reads_map; [now apply angle_reads | reflexivity]. }
  eapply reads_bind.
  { instantiate (1 := (0, 0)). change BLOCK_8X8 with 3. rewrite P4, ge8_ok, W, H by assumption.
    apply reads_wif'; [|intros _ | reflexivity].
    - destruct (allow_screen_content_tools p), (3 <=? s), (Block_Width s <=? 64), (Block_Height s <=? 64); reflexivity.
    - unfold palette_mode_info, write_use_palette_mode. rewrite log_ok by assumption.
      rewrite (chroma_ok f p r0 c0) by (try assumption; repeat split; try assumption; now apply P3). fold hc.
      eapply reads_bind; [apply (reads_wif (m =? 0) _ _ 0 0); [intros _; apply reads_sym; lia | reflexivity]|].
      cbn [Z.eqb negb].
      assert (Q : reads (match (if hc then Some (uv, (if uv =? 13 then (u, v) else (0, 0)), auv) else None) with
                         | Some (0, _, _) => rsym "PaletteUVMode" [0] 2 | _ => ret 0 end)
                    (wif (hc && (uv =? 0)) (wsym "PaletteUVMode" [0] 2 0)) 0).
      { destruct hc; [|apply reads_ret]. destruct uv; cbn; [apply reads_sym; lia | apply reads_ret | apply reads_ret]. }
      destruct Q as [l [Q1 Q2]]. exists l. split; [exact Q1|]. intros rest. unfold bind. rewrite Q2. reflexivity. }
  eapply reads_map; [|reflexivity]. unfold filter_intra_mode_info. rewrite P5, W, H.
  apply reads_wif'; [|intros _ | reflexivity].
  - replace (Z.max (Block_Width s) (Block_Height s) <=? 32) with ((Block_Width s <=? 32) && (Block_Height s <=? 32))%bool by lia.
    now rewrite andb_assoc.
  - exists [ESym "FilterIntra" [s] 2 0]. split; [reflexivity|]. intros rest. unfold bind. cbn [app].
    rewrite rsym_ok by lia. reflexivity.
Qed.

(** The tables are chosen for the partitions rav1e uses only.  For a block of 4x16, which it
    never makes, `bsize >= BLOCK_8X8` is false (neither is larger) while the specification
    compares numbers: the angle delta would not be written where the decoder expects it. *)
Definition key8 : params := mkParams 0 false true true false false.
Definition fi8 : fip := mkFi false false 1 1 0 false.
Theorem C60_4x16_refuted :
  exists l, write_intra_info fi8 (fun _ _ => 0) 0 0 16 1 0 0 0 cfl_default = Some l /\
    intra_mode_info key8 0 0 0 0 16 (fun _ _ => 0) l = None.
Proof. eexists. split; vm_compute; reflexivity. Qed.

(** A 16x16 block with a block predicted downwards above it: mode D45 with delta -2, chroma from luma. *)
Example C60_case :
  match write_intra_info fi8 (fun j i => if j =? 3 then 1 else 9) 4 4 6 3 (-2) 13 0 (from_alpha (-3) 5) with
  | Some l =>
      l = [ESym "YModeKF" [1; 0] 13 3; ESym "AngleDelta" [2] 7 1; ESym "UVModeCflAllowed" [3] 14 13; ESym "CflSign" [] 8 4;
           ESym "CflAlpha" [2] 16 2; ESym "CflAlpha" [4] 16 4] /\
      intra_mode_info key8 16 32 20 36 6 (fun j i => if j =? 19 then 1 else 9) l =
        Some (mkM 3 (-2) (Some (13, (-3, 5), 0)) (0, 0) 0, [])
  | None => False
  end.
Proof. vm_compute. split; reflexivity. Qed.
(** A 4x4 block on an even row and column has no chroma in 4:2:0. *)
Example C60_nochroma : HasChroma key8 16 32 0 = false /\ HasChroma key8 17 33 0 = true.
Proof. split; reflexivity. Qed.
(** The hypotheses can be met. *)
Example C60_ok : same_params fi8 key8 /\ choice_ok 6 3 (-2) 13 0 (-3) 5.
Proof.
  split; [repeat split; reflexivity|]. unfold choice_ok, angle_ok.
  change (Block_Width 6) with 16. change (Block_Height 6) with 16. lia.
Qed.

Print Assumptions C60_cfl_alphas.
Print Assumptions C60_intra_modes.
Print Assumptions C60_4x16_refuted.
