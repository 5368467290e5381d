From Verif Require Import Base Bits Tile_model Tile_spec Tile_proof Config_model.

Lemma check_none b e r : check b e r = None -> b = false /\ r = None.
Proof. unfold check. destruct b; [discriminate|auto]. Qed.

Lemma bad_size_ok still n : bad_size still n = false -> 1 <= n <= 65535.
Proof.
  unfold bad_size. destruct still; cbn [andb negb orb];
  destruct (Z.ltb_spec n 1), (Z.ltb_spec n 16), (Z.ltb_spec 65535 n); cbn; try discriminate; lia.
Qed.

(** What acceptance means. *)
Record accepted (c : vconfig) : Prop := {
  ac_w : 1 <= vc_width c <= 65535;
  ac_h : 1 <= vc_height c <= 65535;
  ac_cols : check_tile_log2 (vc_tile_cols c) = true;
  ac_rows : check_tile_log2 (vc_tile_rows c) = true;
  ac_num : vc_tb_num c <> 0 /\ vc_tb_num c <= 2 ^ 32 - 1;
  ac_den : vc_tb_den c <> 0 /\ vc_tb_den c <= 2 ^ 32 - 1;
  ac_level : forall l, vc_level c = Some l -> l <= 31 /\
    (l < 31 -> let i := Z.to_nat l in
      nth i AV1_LEVEL_DEFINED false = true /\
      vc_width c * vc_height c <= nth i AV1_LEVEL_MAX_PIC_SIZE 0 /\
      vc_width c <= nth i AV1_LEVEL_MAX_H_SIZE 0 /\
      vc_height c <= nth i AV1_LEVEL_MAX_V_SIZE 0)
}.

Lemma validate_accepted c : validate c = None -> accepted c.
Proof.
  unfold validate. intros H.
  repeat (apply check_none in H; let E := fresh "E" in destruct H as [E H]).
  assert (L : match vc_level c with
              | None => True
              | Some l => l <= 31 /\ (l < 31 -> let i := Z.to_nat l in
                  nth i AV1_LEVEL_DEFINED false = true /\ vc_width c * vc_height c <= nth i AV1_LEVEL_MAX_PIC_SIZE 0 /\
                  vc_width c <= nth i AV1_LEVEL_MAX_H_SIZE 0 /\ vc_height c <= nth i AV1_LEVEL_MAX_V_SIZE 0)
              end).
  { clear - H. destruct (vc_level c) as [l|]; [|exact I]. apply check_none in H. destruct H as [E31 H].
    apply Z.ltb_ge in E31. split; [lia|]. intros L31. destruct (Z.ltb_spec l 31); [|lia]. cbv zeta in *.
    apply check_none in H. destruct H as [D H]. apply check_none in H. destruct H as [P H].
    apply check_none in H. destruct H as [Hh H]. apply check_none in H. destruct H as [Hv H].
    apply Z.ltb_ge in P, Hh, Hv. apply negb_false_iff in D. auto. }
  clear H.
  apply orb_false_iff in E9, E10. destruct E9 as [N1 N2], E10 as [D1 D2].
  apply Z.eqb_neq in N1, D1. apply Z.ltb_ge in N2, D2.
  apply negb_false_iff in E7, E8.
  constructor; try (eapply bad_size_ok; eassumption); try assumption; try (split; assumption).
  intros l El. rewrite El in L. exact L.
Qed.

Lemma check_tile_some n : check_tile_log2 n = true -> exists k, tile_log2 1 n = Some k.
Proof. unfold check_tile_log2. destruct (tile_log2 1 n); [eauto|discriminate]. Qed.

(** The floating-point rate limit, up to a relative error of 2^-20 of the
    frame rate. *)
Definition rate_close (w h num den rl : Z) : Prop :=
  rl <= 0 \/
  2 ^ (rl - 1) * (num * MAX_TILE_RATE) * 2 ^ 20 < align 3 w * align 3 h * den * (2 ^ 20 + 1).

Lemma rate_close_exact w h num den : 1 <= w -> 1 <= h -> 1 <= num -> 1 <= den ->
  rate_close w h num den (rate_limit_log2 w h num den).
Proof.
  intros Hw Hh Hn Hd. unfold rate_close, rate_limit_log2, MAX_TILE_RATE. rewrite !align_spec by lia. change (2 ^ 3) with 8.
  set (a := 8 * div_ceil w 8 * (8 * div_ceil h 8) * den). change (4096 * 2176 * 66) with 588251136.
  assert (A : 1 <= a).
  { unfold a. pose proof (div_ceil_pos w 8 ltac:(lia) ltac:(lia)). pose proof (div_ceil_pos h 8 ltac:(lia) ltac:(lia)).
    assert (1 * 1 <= 8 * div_ceil w 8 * (8 * div_ceil h 8)) by (apply Z.mul_le_mono_nonneg; lia).
    assert (1 * 1 <= 8 * div_ceil w 8 * (8 * div_ceil h 8) * den) by (apply Z.mul_le_mono_nonneg; lia). lia. }
  set (m := num * 588251136). assert (M : 1 <= m) by (unfold m; lia).
  pose proof (div_ceil_bounds a m ltac:(lia)) as B. pose proof (div_ceil_pos a m ltac:(lia) ltac:(lia)) as P.
  destruct (Z.le_gt_cases (Z.log2_up (div_ceil a m)) 0); [now left|]. right.
  assert (2 ^ (Z.log2_up (div_ceil a m) - 1) < div_ceil a m).
  { pose proof (Z.log2_up_spec (div_ceil a m)) as S. rewrite <- Z.sub_1_r in S. apply S.
    destruct (Z.eq_dec (div_ceil a m) 1) as [E|E]; [rewrite E in H; cbn in H; lia|lia]. }
  assert (Q : 2 ^ (Z.log2_up (div_ceil a m) - 1) * m <= m * (div_ceil a m - 1)) by (rewrite Z.mul_comm; apply Z.mul_le_mono_nonneg_l; lia).
  change (2 ^ 20) with 1048576. lia.
Qed.

(** At ordinary frame rates the tiling is computed without panicking. *)
Lemma from_target_total w h rl tc tr is_422 num den :
  1 <= w <= 65535 -> 1 <= h <= 65535 -> 1 <= num -> 0 <= den -> den <= 140 * num -> rate_close w h num den rl ->
  exists t, from_target_tiles w h rl tc tr is_422 = Some t.
Proof.
  intros Hw Hh Hn Hd Hr Hc. pose proof (from_target_tiles_ok w h rl tc tr is_422 Hw Hh) as H.
  destruct (from_target_tiles w h rl tc tr is_422) as [t|]; [eauto|]. exfalso.
  destruct H as (c & mr & Hmin & Hmr & Hlt).
  destruct (sizes_bound w Hw) as [W1 W2], (sizes_bound h Hh) as [H1 H2].
  set (sbc := div_ceil (8 * div_ceil w 8) 64) in *. set (sbr := div_ceil (8 * div_ceil h 8) 64) in *.
  destruct (tile_log2_ok 64 sbc ltac:(lia) ltac:(lia)) as (k & _ & Hk & _).
  specialize (Hmin k Hk). destruct Hk as (K0 & K1 & _).
  assert (Mr0 : 0 <= mr) by (destruct Hmr; assumption).
  assert (Fw : 8 * div_ceil w 8 <= 4096 * 2 ^ c).
  { pose proof (div_ceil_bounds (8 * div_ceil w 8) 64 ltac:(lia)) as H. fold sbc in H.
    assert (2 ^ k <= 2 ^ c) by (apply Z.pow_le_mono_r; lia). lia. }
  assert (Fh : 8 * div_ceil h 8 <= 1024 * 2 ^ mr).
  { pose proof (div_ceil_bounds (8 * div_ceil h 8) 64 ltac:(lia)) as H. fold sbr in H.
    destruct (Z.le_gt_cases sbr 64) as [L|L].
    - destruct Hmr as (_ & Hr' & _). rewrite Z.min_l in Hr' by lia. pose proof (pow2_pos mr Mr0). lia.
    - assert (5 < mr).
      { apply (is_tile_log2_gt 1 (Z.min sbr 64)); [lia|assumption|lia|change (2 ^ 5) with 32; lia]. }
      assert (2 ^ 6 <= 2 ^ mr) by (apply Z.pow_le_mono_r; lia). change (2 ^ 6) with 64 in *. lia. }
  assert (P : 2 ^ c * 2 ^ mr <= 2 ^ (rl - 1)) by (rewrite <- Z.pow_add_r by lia; apply Z.pow_le_mono_r; lia).
  pose proof (pow2_pos c ltac:(lia)) as Pc. pose proof (pow2_pos mr Mr0) as Pm.
  destruct Hc as [Hc|Hc]; [lia|]. rewrite !align_spec in Hc by lia. change (2 ^ 3) with 8 in Hc.
  unfold MAX_TILE_RATE in Hc. change (4096 * 2176 * 66) with 588251136 in Hc. change (2 ^ 20) with 1048576 in Hc.
  set (A := 8 * div_ceil w 8) in *. set (B := 8 * div_ceil h 8) in *. set (R := 2 ^ (rl - 1)) in *.
  assert (AB : A * B <= 4194304 * R).
  { assert (A * B <= 4096 * 2 ^ c * (1024 * 2 ^ mr)) by (apply Z.mul_le_mono_nonneg; lia). lia. }
  assert (ABd : A * B * den <= 4194304 * R * (140 * num)).
  { apply Z.mul_le_mono_nonneg; try lia. }
  assert (R0 : 0 < R) by (unfold R in *; lia).
  assert (0 < R * num) by (apply Z.mul_pos_pos; lia).
  replace (R * (num * 588251136)) with (588251136 * (R * num)) in Hc by ring.
  replace (4194304 * R * (140 * num)) with (587202560 * (R * num)) in ABd by ring. lia.
Qed.

Section Search.
Variables (w h rl tiles : Z) (is_422 : bool).
Hypotheses (Hw : 1 <= w <= 65535) (Hh : 1 <= h <= 65535).
Hypothesis Total : forall tc tr, exists t, from_target_tiles w h rl tc tr is_422 = Some t.

Lemma max_logs : exists mr mc, 0 <= mr <= 6 /\ 0 <= mc <= 6 /\
  forall tc tr t, from_target_tiles w h rl tc tr is_422 = Some t -> t_max_rows_log2 t = mr /\ t_max_cols_log2 t = mc.
Proof.
  destruct (sizes_bound w Hw) as [W1 W2], (sizes_bound h Hh) as [H1 H2].
  set (sbc := div_ceil (8 * div_ceil w 8) 64) in *. set (sbr := div_ceil (8 * div_ceil h 8) 64) in *.
  destruct (tile_log2_ok 1 (Z.min sbr 64) ltac:(lia) ltac:(lia)) as (mr & _ & Hr & _).
  destruct (tile_log2_ok 1 (Z.min sbc 64) ltac:(lia) ltac:(lia)) as (mc & _ & Hc & _).
  exists mr, mc. split; [|split].
  - split; [destruct Hr; assumption|]. apply (is_tile_log2_le 1 (Z.min sbr 64)); [lia|assumption|change (1 * 2 ^ 6) with 64; lia].
  - split; [destruct Hc; assumption|]. apply (is_tile_log2_le 1 (Z.min sbc 64)); [lia|assumption|change (1 * 2 ^ 6) with 64; lia].
  - intros tc tr t E. pose proof (from_target_tiles_ok w h rl tc tr is_422 Hw Hh) as H. rewrite E in H.
    destruct H as (F & _). split.
    + eapply is_tile_log2_unique; [exact (tf_max_rows _ _ _ _ _ _ F)|exact Hr].
    + eapply is_tile_log2_unique; [exact (tf_max_cols _ _ _ _ _ _ F)|exact Hc].
Qed.

(** The search terminates; it stops with enough tiles or one halving short of
    the finest grid. *)
Lemma search_ok mr mc : (forall tc tr t, from_target_tiles w h rl tc tr is_422 = Some t -> t_max_rows_log2 t = mr /\ t_max_cols_log2 t = mc) ->
  forall fuel rq cq t, 0 <= rq <= mr -> 0 <= cq <= mc -> (mr - rq) + (mc - cq) < Z.of_nat fuel ->
  t_max_rows_log2 t = mr -> t_max_cols_log2 t = mc ->
  (rq + cq = 0 \/ from_target_tiles w h rl (cq - 1) rq is_422 = Some t \/ from_target_tiles w h rl cq (rq - 1) is_422 = Some t) ->
  exists t', tiles_search fuel w h rl tiles is_422 rq cq t = Some t' /\
    ((exists tc tr, from_target_tiles w h rl tc tr is_422 = Some t' /\ tiles <= t_rows t' * t_cols t') \/
     mr + mc = 0 \/
     (exists tc tr, tc + tr + 1 = mr + mc /\ from_target_tiles w h rl tc tr is_422 = Some t')).
Proof.
  intros Hmax. induction fuel as [|fuel IH]; intros rq cq t Hrq Hcq Hf Er Ec Hprev; [lia|].
  cbn [tiles_search]. rewrite Er, Ec.
  destruct ((rq <? mr) || (cq <? mc)) eqn:G.
  2:{ exists t. split; [reflexivity|]. apply orb_false_iff in G. destruct G as [G1 G2]. apply Z.ltb_ge in G1, G2.
      assert (rq = mr) by lia. assert (cq = mc) by lia. subst rq cq.
      destruct Hprev as [Z0|[P|P]]; [right; left; lia| |].
      - right; right. exists (mc - 1), mr. split; [clear; lia|exact P].
      - right; right. exists mc, (mr - 1). split; [clear; lia|exact P]. }
  destruct (Total cq rq) as (t1 & E1). rewrite E1. cbn [bindo].
  destruct (Hmax _ _ _ E1) as [M1 M2]. rewrite M1, M2.
  destruct (Z.leb_spec tiles (t_rows t1 * t_cols t1)) as [L|L].
  - exists t1. split; [reflexivity|]. left. exists cq, rq. auto.
  - pose proof (from_target_tiles_ok w h rl cq rq is_422 Hw Hh) as Facts. rewrite E1 in Facts.
    destruct Facts as (_ & _ & _ & Rreq). rewrite M1 in Rreq.
    destruct (((t_tw t1 <=? t_th t1) && (t_rows_log2 t1 <? mr)) || (mc <=? cq)) eqn:B.
    + apply orb_true_iff in G. apply orb_true_iff in B.
      assert (rq < mr).
      { destruct B as [B|B].
        - apply andb_true_iff in B. destruct B as [_ B]. apply Z.ltb_lt in B. lia.
        - apply Z.leb_le in B. destruct G as [G|G]; apply Z.ltb_lt in G; lia. }
      apply IH; try assumption; try lia. right; right. replace (rq + 1 - 1) with rq by lia. exact E1.
    + apply orb_false_iff in B. destruct B as [_ B]. apply Z.leb_gt in B.
      apply IH; try assumption; try lia. right; left. replace (cq + 1 - 1) with cq by lia. exact E1.
Qed.
End Search.

(** Every tiling produced by the configuration is one of [from_target_tiles]. *)
Lemma search_from w h rl tiles is_422 t : forall fuel rq cq t0,
  (exists tc tr, from_target_tiles w h rl tc tr is_422 = Some t0) ->
  tiles_search fuel w h rl tiles is_422 rq cq t0 = Some t -> exists tc tr, from_target_tiles w h rl tc tr is_422 = Some t.
Proof.
  induction fuel as [|fuel IH]; intros rq cq t1 H1 E; [discriminate|]. cbn [tiles_search] in E.
  destruct ((rq <? t_max_rows_log2 t1) || (cq <? t_max_cols_log2 t1)); [|injection E as <-; exact H1].
  destruct (from_target_tiles w h rl cq rq is_422) as [t2|] eqn:E2; [|discriminate]. cbn [bindo] in E.
  destruct (tiles <=? t_rows t2 * t_cols t2); [injection E as <-; eauto|].
  destruct (((t_tw t2 <=? t_th t2) && (t_rows_log2 t2 <? t_max_rows_log2 t2)) || (t_max_cols_log2 t2 <=? cq));
    (eapply IH; [|exact E]; eauto).
Qed.
Lemma sequence_tiling_from w h rl tile_cols tile_rows tiles is_422 t :
  sequence_tiling w h rl tile_cols tile_rows tiles is_422 = Some t ->
  exists tc tr, from_target_tiles w h rl tc tr is_422 = Some t.
Proof.
  unfold sequence_tiling. destruct (tile_log2 1 tile_cols) as [tc|]; [|discriminate].
  destruct (tile_log2 1 tile_rows) as [tr|]; [|discriminate]. cbn [bindo].
  destruct (from_target_tiles w h rl tc tr is_422) as [t0|] eqn:E0; [|discriminate]. cbn [bindo].
  destruct (0 <? tiles); [|intros E; injection E as <-; eauto].
  apply search_from. eauto.
Qed.
Lemma sequence_new_from c rl t : sequence_new c rl = Some t ->
  exists tc tr, from_target_tiles (vc_width c) (vc_height c) rl tc tr (chroma_eqb (vc_chroma c) Cs422) = Some t.
Proof.
  unfold sequence_new. cbv zeta. destruct (_ || _); [discriminate|]. apply sequence_tiling_from.
Qed.

Section Accepted.
Variables (c : vconfig) (rl : Z).
Hypotheses (V : validate c = None) (T : typed c) (Hr : vc_tb_den c <= 140 * vc_tb_num c).
Hypothesis Hc : rate_close (vc_width c) (vc_height c) (vc_tb_num c) (vc_tb_den c) rl.

Lemma accepted_total tc tr :
  exists t, from_target_tiles (vc_width c) (vc_height c) rl tc tr (chroma_eqb (vc_chroma c) Cs422) = Some t.
Proof.
  destruct (validate_accepted c V). destruct T as (_ & _ & _ & _ & _ & Tn & Td & _).
  eapply from_target_total; try eassumption; lia.
Qed.

Lemma sequence_new_total : exists t, sequence_new c rl = Some t /\
  (0 < vc_tiles c -> vc_tiles c <= t_rows t * t_cols t \/
     t_max_rows_log2 t + t_max_cols_log2 t = 0 \/
     exists tc tr, tc + tr + 1 = t_max_rows_log2 t + t_max_cols_log2 t /\
       from_target_tiles (vc_width c) (vc_height c) rl tc tr (chroma_eqb (vc_chroma c) Cs422) = Some t).
Proof.
  pose proof accepted_total as Tot. destruct (validate_accepted c V).
  unfold sequence_new. cbv zeta. rewrite !u32_id by lia.
  assert (LW : forall n, 1 <= n <= 65535 -> (16 <? (if n =? 0 then 0 else Z.log2 n + 1)) = false).
  { intros n Hn. destruct (Z.eqb_spec n 0); [lia|]. apply Z.ltb_ge.
    assert (Z.log2 n < 16) by (apply Z.log2_lt_pow2; lia). lia. }
  rewrite (LW _ ac_w0), (LW _ ac_h0). cbn [orb].
  unfold sequence_tiling.
  destruct (check_tile_some _ ac_cols0) as (tc & ->). destruct (check_tile_some _ ac_rows0) as (tr & ->). cbn [bindo].
  destruct (Tot tc tr) as (t & E). rewrite E. cbn [bindo].
  destruct (Z.ltb_spec 0 (vc_tiles c)); [|exists t; split; [reflexivity|lia]].
  destruct (max_logs _ _ rl (chroma_eqb (vc_chroma c) Cs422) ac_w0 ac_h0 Tot) as (mr & mc & Hmr & Hmc & Hmax).
  destruct (Hmax _ _ _ E) as [E1 E2].
  assert (B1 : 0 <= 0 <= mr) by (clear - Hmr; lia). assert (B2 : 0 <= 0 <= mc) by (clear - Hmc; lia).
  assert (B3 : (mr - 0) + (mc - 0) < Z.of_nat 64) by (clear - Hmr Hmc; lia).
  destruct (search_ok _ _ rl (vc_tiles c) _ ac_w0 ac_h0 Tot mr mc Hmax 64%nat 0 0 t B1 B2 B3 E1 E2
              (or_introl eq_refl)) as (t' & Et & C).
  exists t'. split; [exact Et|]. intros _.
  destruct C as [(a & b & Ea & G)|[G|(a & b & G & Ea)]].
  - left. exact G.
  - right; left.
    assert (Fr : exists a b, from_target_tiles (vc_width c) (vc_height c) rl a b (chroma_eqb (vc_chroma c) Cs422) = Some t')
      by (apply (search_from _ _ _ _ _ _ _ _ _ _ (ex_intro _ tc (ex_intro _ tr E)) Et)).
    destruct Fr as (a & b & Ea). destruct (Hmax _ _ _ Ea) as [-> ->]. exact G.
  - destruct (Hmax _ _ _ Ea) as [-> ->]. right; right. exists a, b. split; [exact G|exact Ea].
Qed.
End Accepted.
