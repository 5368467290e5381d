(** Intra prediction: the directional prediction of the model is that of the specification. *)
From Verif Require Import Base Edge_model Intra_model Intra_edge.
From Verif Require Intra_spec.
Local Open Scope Z_scope.

(** The angles and what is needed of their derivatives. *)
Definition angles : list Z := flat_map (fun a => map (fun d => a + 3 * d) [-3; -2; -1; 0; 1; 2; 3]) [90; 180; 45; 135; 113; 157; 203; 67].
Definition angle_ok (p : Z) : bool :=
  (30 <=? p) && (p <? 215) &&
  if p <? 90 then 0 <=? Intra_spec.Dr_Intra_Derivative p
  else if (90 <? p) && (p <? 180) then
    let dx := Intra_spec.Dr_Intra_Derivative (180 - p) in let dy := Intra_spec.Dr_Intra_Derivative (p - 90) in
    (1 <=? dx) && (1 <=? dy) && (dx * dy <=? 4096)
  else if 180 <? p then (1 <=? Intra_spec.Dr_Intra_Derivative (270 - p)) && (Intra_spec.Dr_Intra_Derivative (270 - p) <=? 40)
  else true.
Lemma angles_ok p : In p angles -> angle_ok p = true.
Proof. assert (K : forallb angle_ok angles = true) by (vm_compute; reflexivity). rewrite forallb_forall in K. apply K. Qed.

(* the prediction from two edges, as at the end of 7.11.2.4 *)
Definition dir_body (w h : Z) (A L : Z -> Z) (ua ul p i j : Z) : Z :=
  let dx := if p <? 90 then Intra_spec.Dr_Intra_Derivative p else Intra_spec.Dr_Intra_Derivative (180 - p) in
  let dy := if p <? 180 then Intra_spec.Dr_Intra_Derivative (p - 90) else Intra_spec.Dr_Intra_Derivative (270 - p) in
  if p <? 90 then
    let idx := (i + 1) * dx in
    let base := Z.shiftr idx (6 - ua) + Z.shiftl j ua in
    let shift := Z.land (Z.shiftr (Z.shiftl idx ua) 1) 31 in
    let maxBaseX := Z.shiftl (w + h - 1) ua in
    if base <? maxBaseX then Intra_spec.Round2 (A base * (32 - shift) + A (base + 1) * shift) 5 else A maxBaseX
  else if (90 <? p) && (p <? 180) then
    let idx := Z.shiftl j 6 - (i + 1) * dx in
    let base := Z.shiftr idx (6 - ua) in
    if - Z.shiftl 1 ua <=? base then
      let shift := Z.land (Z.shiftr (Z.shiftl idx ua) 1) 31 in
      Intra_spec.Round2 (A base * (32 - shift) + A (base + 1) * shift) 5
    else
      let idx := Z.shiftl i 6 - (j + 1) * dy in
      let base := Z.shiftr idx (6 - ul) in
      let shift := Z.land (Z.shiftr (Z.shiftl idx ul) 1) 31 in
      Intra_spec.Round2 (L base * (32 - shift) + L (base + 1) * shift) 5
  else if 180 <? p then
    let idx := (j + 1) * dy in
    let base := Z.shiftr idx (6 - ul) + Z.shiftl i ul in
    let shift := Z.land (Z.shiftr (Z.shiftl idx ul) 1) 31 in
    Intra_spec.Round2 (L base * (32 - shift) + L (base + 1) * shift) 5
  else if p =? 90 then A j else L i.
Lemma directional_eq bd w h Above Left hl ha p rw rh ef sm i j :
  Intra_spec.directional bd w h hl ha rw rh ef sm Above Left p i j =
  dir_body w h (Aedge bd w h Above Left ha p rw ef sm) (Ledge bd w h Above Left hl p rh ef sm) (bz (upA w h p ef sm)) (bz (upL w h p ef sm)) p i j.
Proof. reflexivity. Qed.

Lemma land31 v : 0 <= Z.land v 31 <= 31.
Proof. replace (Z.land v 31) with (v mod 32) by (symmetry; exact (Z.land_ones v 5 ltac:(lia))). dlia. Qed.
Lemma blend_eq tb bd a b s : 0 <= bd <= tb -> inr bd a -> inr bd b -> 0 <= s <= 31 -> blend tb bd a b s = Intra_spec.Round2 (a * (32 - s) + b * s) 5.
Proof.
  intros H A B S. unfold blend, round_shift, Intra_spec.Round2, sample_max. cbn [Z.eqb]. change (Z.shiftr (Z.shiftl 1 5) 1) with 16. change (Z.shiftl 1 (5 - 1)) with 16.
  unfold inr in *. assert (K : 0 <= a * (32 - s) + b * s <= 32 * (2 ^ bd - 1)) by (set (M := 2 ^ bd) in *; clearbody M; nia).
  set (v := a * (32 - s) + b * s) in *. clearbody v. assert (R : 0 <= Z.shiftr (v + 16) 5 < 2 ^ bd).
  { rewrite Z.shiftr_div_pow2 by lia. change (2 ^ 5) with 32. set (M := 2 ^ bd) in *. clearbody M. clear - K. dlia. }
  unfold clamp. replace (Z.max 0 (Z.min (2 ^ bd - 1) (Z.shiftr (v + 16) 5))) with (Z.shiftr (v + 16) 5) by lia. apply (cast_id tb bd); auto.
Qed.
Lemma blend_range bd a b s : inr bd a -> inr bd b -> 0 <= s <= 31 -> inr bd (Intra_spec.Round2 (a * (32 - s) + b * s) 5).
Proof.
  intros A B S. unfold Intra_spec.Round2. cbn [Z.eqb]. change (Z.shiftl 1 (5 - 1)) with 16. unfold inr in *. rewrite Z.shiftr_div_pow2 by lia. change (2 ^ 5) with 32.
  set (M := 2 ^ bd) in *. clearbody M. assert (0 <= a * (32 - s) + b * s <= 32 * (M - 1)) by nia. set (v := a * (32 - s) + b * s) in *. clearbody v. clear - H. dlia.
Qed.

(** Where the samples are read. *)
Lemma sc u v : u = 0 \/ u = 1 -> Z.shiftr v (6 - u) = v / (if u =? 0 then 64 else 32).
Proof. intros [-> | ->]; rewrite Z.shiftr_div_pow2 by lia; reflexivity. Qed.
Lemma sl u v : u = 0 \/ u = 1 -> Z.shiftl v u = v * (if u =? 0 then 1 else 2).
Proof. intros [-> | ->]; rewrite Z.shiftl_mul_pow2 by lia; reflexivity. Qed.
Lemma zone1 u j K : u = 0 \/ u = 1 -> 0 <= j -> 0 <= K -> 0 <= Z.shiftr K (6 - u) + Z.shiftl j u.
Proof. intros U J HK. rewrite sc, sl by auto. destruct U as [-> | ->]; cbn [Z.eqb]; dlia. Qed.
Lemma zone2_above u j K w : u = 0 \/ u = 1 -> 0 <= j < w -> 1 <= K -> Z.shiftr (Z.shiftl j 6 - K) (6 - u) + 1 <= (w - 1) * Z.shiftl 1 u.
Proof. intros U J HK. rewrite sc, (sl u 1) by auto. rewrite Z.shiftl_mul_pow2 by lia. change (2 ^ 6) with 64. destruct U as [-> | ->]; cbn [Z.eqb]; dlia. Qed.
Lemma zone2_left ua ul i j dx dy : ua = 0 \/ ua = 1 -> ul = 0 \/ ul = 1 -> 0 <= i -> 0 <= j -> 1 <= dx -> 1 <= dy -> dx * dy <= 4096 ->
  Z.shiftr (Z.shiftl j 6 - (i + 1) * dx) (6 - ua) < - Z.shiftl 1 ua -> - Z.shiftl 1 ul <= Z.shiftr (Z.shiftl i 6 - (j + 1) * dy) (6 - ul).
Proof.
  intros Ua Ul Hi Hj Hx Hy Hxy B. rewrite sc, (sl ua 1) in B by auto. rewrite sc, (sl ul 1) by auto. rewrite Z.shiftl_mul_pow2 in * by lia. change (2 ^ 6) with 64 in *.
  assert (B' : j * 64 - (i + 1) * dx < -64) by (clear - B Ua; set (v := j * 64 - (i + 1) * dx) in *; clearbody v; destruct Ua as [-> | ->]; cbn [Z.eqb] in B; dlia).
  assert (Q : (j + 1) * dy <= 64 * (i + 1)).
  { assert (Q1 : 64 * (j + 1) <= (i + 1) * dx) by (clear - B'; lia). assert (Q2 : 64 * (j + 1) * dy <= (i + 1) * dx * dy) by (apply Z.mul_le_mono_nonneg_r; lia).
    assert (Q3 : (i + 1) * (dx * dy) <= (i + 1) * 4096) by (apply Z.mul_le_mono_nonneg_l; lia). clear - Q2 Q3. nia. }
  clear - Q Ul. set (v := (j + 1) * dy) in *. clearbody v. destruct Ul as [-> | ->]; cbn [Z.eqb]; dlia.
Qed.
Lemma zone3 u i j w h dy : u = 0 \/ u = 1 -> 0 <= i < h -> 0 <= j < w -> 4 <= w -> 1 <= dy <= 40 ->
  0 <= Z.shiftr ((j + 1) * dy) (6 - u) + Z.shiftl i u /\ Z.shiftr ((j + 1) * dy) (6 - u) + Z.shiftl i u + 1 <= (h + w - 1) * Z.shiftl 1 u.
Proof.
  intros U I J W D. rewrite sc, !sl by auto. assert (K : 0 <= (j + 1) * dy <= w * 40) by (split; [apply Z.mul_nonneg_nonneg; lia|apply Z.mul_le_mono_nonneg; lia]).
  set (v := (j + 1) * dy) in *. clearbody v. destruct U as [-> | ->]; cbn [Z.eqb]; dlia.
Qed.
Lemma rd_some s i : 0 <= i < s_len s -> rd s i = Some (s_at s i).
Proof. intros H. unfold rd. replace ((0 <=? i) && (i <? s_len s)) with true by lia. reflexivity. Qed.
Lemma pow_u u : u = 0 \/ u = 1 -> 1 <= Z.shiftl 1 u <= 2.
Proof. intros [-> | ->]; cbn; lia. Qed.

(** Prediction from slices that hold the edges A and L. *)
Section Body.
Variables (tb bd w h p ua ul tl : Z) (enable : bool) (A L : Z -> Z) (ae le : slice).
Hypotheses (Hbd : 0 <= bd <= tb) (Hw : 4 <= w <= 64) (Hh : 4 <= h <= 64) (Hp : In p angles) (Hua : ua = 0 \/ ua = 1) (Hul : ul = 0 \/ ul = 1).
Let n_a : Z := nA w h p.
Let n_l : Z := nL w h p.
Let offA : Z := Z.shiftl (if enable then 1 else 0) ua.
Let offL : Z := Z.shiftl (if enable then 1 else 0) ul.
Hypothesis RA : forall q, - Z.shiftl 1 ua <= q <= (n_a - 1) * Z.shiftl 1 ua -> inr bd (A q).
Hypothesis RL : forall q, - Z.shiftl 1 ul <= q <= (n_l - 1) * Z.shiftl 1 ul -> inr bd (L q).
Hypothesis VA : forall q, - offA <= q <= (n_a - 1) * Z.shiftl 1 ua -> rd ae (q + offA) = Some (A q).
Hypothesis VL : forall q, - offL <= q <= (n_l - 1) * Z.shiftl 1 ul -> 0 <= s_len le - 1 - (q + offL) /\ rd le (s_len le - 1 - (q + offL)) = Some (L q).
Hypothesis Dis : enable = false -> ua = 0 /\ ul = 0 /\ A (-1) = tl /\ L (-1) = tl.

Lemma offs : (enable = true /\ offA = Z.shiftl 1 ua /\ offL = Z.shiftl 1 ul) \/ (enable = false /\ offA = 0 /\ offL = 0 /\ ua = 0 /\ ul = 0 /\ A (-1) = tl /\ L (-1) = tl).
Proof. unfold offA, offL. destruct enable; [left; auto|right]. destruct (Dis eq_refl) as (-> & -> & ?). auto. Qed.

Theorem body_sound i j : 0 <= i < h -> 0 <= j < w -> p <> 90 -> p <> 180 ->
  (let dx := if p <? 90 then dr_intra_derivative p
    else if (90 <? p) && (p <? 180) then dr_intra_derivative (180 - p) else 0 in
  let dy := if (90 <? p) && (p <? 180) then dr_intra_derivative (p - 90)
    else if 180 <? p then dr_intra_derivative (270 - p) else 0 in
  if p <? 90 then
    let idx := (i + 1) * dx in
    let base := Z.shiftr idx (6 - ua) + Z.shiftl j ua in
    let shift := Z.land (Z.shiftr (Z.shiftl idx ua) 1) 31 in
    let max_base_x := Z.shiftl (h + w - 1) ua in
    if base <? max_base_x then
      do a <- rd ae (base + offA); do b <- rd ae (base + 1 + offA);
      Some (blend tb bd a b shift)
    else do c <- rd ae (max_base_x + offA); Some (cast tb (clamp 0 (sample_max bd) c))
  else if (90 <? p) && (p <? 180) then
    let idx := Z.shiftl j 6 - (i + 1) * dx in
    let base := Z.shiftr idx (6 - ua) in
    if - Z.shiftl 1 ua <=? base then
      let shift := Z.land (Z.shiftr (Z.shiftl idx ua) 1) 31 in
      do a <- (if negb enable && (base <? 0) then Some tl else rd ae (base + offA));
      do b <- rd ae (base + 1 + offA);
      Some (blend tb bd a b shift)
    else
      let idx := Z.shiftl i 6 - (j + 1) * dy in
      let base := Z.shiftr idx (6 - ul) in
      let shift := Z.land (Z.shiftr (Z.shiftl idx ul) 1) 31 in
      let l := s_len le - 1 in
      do a <- (if negb enable && (base <? 0) then Some tl
               else if base + offL =? -2 then rd le 0
               else guard (0 <=? base + offL) (rd le (l - (base + offL))));
      do b <- (if base + offL =? -2 then rd le 1
               else guard (0 <=? base + offL + 1) (rd le (l - (base + offL + 1))));
      Some (blend tb bd a b shift)
  else if 180 <? p then
    let idx := (j + 1) * dy in
    let base := Z.shiftr idx (6 - ul) + Z.shiftl i ul in
    let shift := Z.land (Z.shiftr (Z.shiftl idx ul) 1) 31 in
    let l := s_len le - 1 in
    do a <- rd le (Z.max 0 (l - (base + offL)));
    do b <- rd le (Z.max 0 (l - (base + offL + 1)));
    Some (blend tb bd a b shift)
  else None) = Some (dir_body w h A L ua ul p i j) /\ inr bd (dir_body w h A L ua ul p i j).
Proof.
  intros Hi Hj N1 N2. pose proof (angles_ok p Hp) as OK. unfold angle_ok in OK. cbv zeta. unfold dir_body.
  apply andb_prop in OK. destruct OK as [PR OK].
  pose proof (pow_u ua Hua) as U1. pose proof (pow_u ul Hul) as U2. pose proof offs as OF. 
  assert (NA : n_a = w + (if p <? 90 then h else 0)) by reflexivity. assert (NL : n_l = h + (if 180 <? p then w else 0)) by reflexivity.
  destruct (Z.ltb_spec p 90) as [P|P].
  - (* below 90 degrees: from above *)
    rewrite dr_eq by (clear - PR P; lia). set (K := (i + 1) * Intra_spec.Dr_Intra_Derivative p) in *.
    assert (KP : 0 <= K) by (unfold K; clear - OK Hi; apply Z.mul_nonneg_nonneg; lia).
    pose proof (zone1 ua j K Hua ltac:(clear - Hj; lia) KP) as Z1. replace (h + w - 1) with (w + h - 1) by lia.
    assert (MX : Z.shiftl (w + h - 1) ua = (n_a - 1) * Z.shiftl 1 ua) by (rewrite !sl by auto; rewrite NA; ring).
    rewrite MX. set (base := Z.shiftr K (6 - ua) + Z.shiftl j ua) in *. clearbody base.
    assert (NP : 0 <= (n_a - 1) * Z.shiftl 1 ua) by (clear - NA U1 Hw Hh; apply Z.mul_nonneg_nonneg; lia).
    set (mx := (n_a - 1) * Z.shiftl 1 ua) in *. clearbody mx.
    assert (O : 0 <= offA) by (clear - OF U1; lia).
    destruct (Z.ltb_spec base mx) as [B|B].
    + rewrite VA by (clear - O Z1 B; lia). replace (base + 1 + offA) with ((base + 1) + offA) by lia. rewrite VA by (clear - O Z1 B; lia). cbn [obind].
      assert (R1 : inr bd (A base)) by (apply RA; clear - U1 Z1 B; lia). assert (R2 : inr bd (A (base + 1))) by (apply RA; clear - U1 Z1 B; lia).
      pose proof (land31 (Z.shiftr (Z.shiftl K ua) 1)). rewrite blend_eq by auto. split; [reflexivity|]. apply blend_range; auto.
    + rewrite VA by (clear - O NP; lia). cbn [obind]. assert (R1 : inr bd (A mx)) by (apply RA; clear - U1 NP; lia).
      split; [|exact R1]. f_equal. unfold inr in R1. unfold clamp, sample_max. replace (Z.max 0 (Z.min (2 ^ bd - 1) (A mx))) with (A mx) by (clear - R1; lia). apply (cast_id tb bd); auto.
  - destruct (Z.ltb_spec 90 p) as [P1|P1]; [|clear - P P1 N1; lia].
    destruct (Z.ltb_spec p 180) as [P2|P2]; cbn [andb] in *.
    + (* between: from above or from the left *)
      rewrite !dr_eq by (clear - P1 P2; lia). apply andb_prop in OK. destruct OK as [OK O3]. apply andb_prop in OK. destruct OK as [O1 O2]. apply Z.leb_le in O1, O2, O3.
      set (dx := Intra_spec.Dr_Intra_Derivative (180 - p)) in *. set (dy := Intra_spec.Dr_Intra_Derivative (p - 90)) in *. clearbody dx dy.
      assert (KP : 1 <= (i + 1) * dx) by (assert (1 * 1 <= (i + 1) * dx) by (apply Z.mul_le_mono_nonneg; lia); lia).
      assert (KP2 : 1 <= (j + 1) * dy) by (assert (1 * 1 <= (j + 1) * dy) by (apply Z.mul_le_mono_nonneg; lia); lia).
      rewrite Z.add_0_r in NA. replace (180 <? p) with false in NL by (clear - P2; lia). rewrite Z.add_0_r in NL.
      destruct (Z.leb_spec (- Z.shiftl 1 ua) (Z.shiftr (Z.shiftl j 6 - (i + 1) * dx) (6 - ua))) as [B|B].
      * pose proof (zone2_above ua j ((i + 1) * dx) w Hua Hj KP) as Z1.
        set (idx := Z.shiftl j 6 - (i + 1) * dx) in *. set (base := Z.shiftr idx (6 - ua)) in *. clearbody base.
        rewrite <- NA in Z1.
        assert (R1 : inr bd (A base)) by (apply RA; clear - B Z1; lia). assert (R2 : inr bd (A (base + 1))) by (apply RA; clear - B Z1; lia).
        assert (Va : (if negb enable && (base <? 0) then Some tl else rd ae (base + offA)) = Some (A base)).
        { destruct OF as [(E & Oa & Ol)|(E & Oa & Ol & Ua & Ul & Ta & Tl)]; rewrite E; cbn [negb andb].
          - apply VA. clear - Oa B Z1. lia.
          - subst ua. cbn in B. destruct (Z.ltb_spec base 0); [f_equal; rewrite <- Ta; f_equal; clear - B H; lia|]. apply VA. clear - Oa H Z1. lia. }
        rewrite Va. cbn [obind].
        assert (Vb : rd ae (base + 1 + offA) = Some (A (base + 1))).
        { apply VA. destruct OF as [(E & Oa & Ol)|(E & Oa & Ol & Ua & Ul & Ta & Tl)]; [clear - Oa B Z1; lia|]. subst ua. cbn in B. clear - Oa B Z1. lia. }
        rewrite Vb. cbn [obind]. pose proof (land31 (Z.shiftr (Z.shiftl idx ua) 1)). rewrite blend_eq by auto. split; [reflexivity|]. apply blend_range; auto.
      * pose proof (zone2_left ua ul i j dx dy Hua Hul ltac:(clear - Hi; lia) ltac:(clear - Hj; lia) O1 O2 O3 B) as ZB. pose proof (zone2_above ul i ((j + 1) * dy) h Hul Hi KP2) as Z1.
        clear B. set (idx := Z.shiftl i 6 - (j + 1) * dy) in *. set (base := Z.shiftr idx (6 - ul)) in *. clearbody base.
        rewrite <- NL in Z1.
        assert (R1 : inr bd (L base)) by (apply RL; clear - ZB Z1; lia). assert (R2 : inr bd (L (base + 1))) by (apply RL; clear - ZB Z1; lia).
        assert (X : - offL <= base + 1 /\ -1 <= base + offL).
        { destruct OF as [(E & Oa & Ol)|(E & Oa & Ol & Ua & Ul & Ta & Tl)]; [clear - Ol ZB; lia|]. subst ul. cbn in ZB. clear - Ol ZB. lia. }
        replace (base + offL =? -2) with false by (clear - X; lia).
        assert (Va : (if negb enable && (base <? 0) then Some tl else guard (0 <=? base + offL) (rd le (s_len le - 1 - (base + offL)))) = Some (L base)).
        { destruct OF as [(E & Oa & Ol)|(E & Oa & Ol & Ua & Ul & Ta & Tl)]; rewrite E; cbn [negb andb].
          - unfold guard. replace (0 <=? base + offL) with true by (clear - Ol ZB; lia). apply VL. clear - Ol ZB Z1. lia.
          - subst ul. cbn in ZB. destruct (Z.ltb_spec base 0); [f_equal; rewrite <- Tl; f_equal; clear - ZB H; lia|].
            unfold guard. replace (0 <=? base + offL) with true by (clear - Ol H; lia). apply VL. clear - Ol H Z1. lia. }
        rewrite Va. cbn [obind]. unfold guard. replace (0 <=? base + offL + 1) with true by (clear - X; lia). replace (base + offL + 1) with (base + 1 + offL) by lia.
        rewrite (proj2 (VL (base + 1) ltac:(clear - X Z1; lia))). cbn [obind].
        pose proof (land31 (Z.shiftr (Z.shiftl idx ul) 1)). rewrite blend_eq by auto. split; [reflexivity|]. apply blend_range; auto.
    + (* above 180 degrees: from the left *)
      destruct (Z.ltb_spec 180 p) as [P3|P3]; [|clear - P2 P3 N2; lia].
      rewrite dr_eq by (clear - PR P3; lia). apply andb_prop in OK. destruct OK as [O1 O2]. apply Z.leb_le in O1, O2.
      set (dy := Intra_spec.Dr_Intra_Derivative (270 - p)) in *. clearbody dy.
      destruct (zone3 ul i j w h dy Hul Hi Hj ltac:(clear - Hw; lia) ltac:(clear - O1 O2; lia)) as [Z1 Z2]. rewrite <- NL in Z2.
      set (idx := (j + 1) * dy) in *. set (base := Z.shiftr idx (6 - ul) + Z.shiftl i ul) in *. clearbody base.
      assert (O : 0 <= offL) by (clear - OF U2; lia).
      destruct (VL base ltac:(clear - O Z1 Z2; lia)) as [I1 V1]. destruct (VL (base + 1) ltac:(clear - O Z1 Z2; lia)) as [I2 V2].
      replace (Z.max 0 (s_len le - 1 - (base + offL))) with (s_len le - 1 - (base + offL)) by (clear - I1; lia).
      replace (Z.max 0 (s_len le - 1 - (base + offL + 1))) with (s_len le - 1 - (base + 1 + offL)) by (clear - I2; lia).
      rewrite V1, V2. cbn [obind].
      assert (R1 : inr bd (L base)) by (apply RL; clear - U2 Z1 Z2; lia). assert (R2 : inr bd (L (base + 1))) by (apply RL; clear - U2 Z1 Z2; lia).
      pose proof (land31 (Z.shiftr (Z.shiftl idx ul) 1)). rewrite blend_eq by auto. split; [reflexivity|]. apply blend_range; auto.
Qed.
End Body.

(** The directional prediction. *)
Theorem directional_sound tb bd w h Above Left hl ha p rw rh ef sm above left tl i j :
  1 <= bd <= tb -> 4 <= w <= 64 -> 4 <= h <= 64 -> (forall q, -1 <= q -> inr bd (Above q)) -> (forall q, -1 <= q -> inr bd (Left q)) -> Left (-1) = Above (-1) ->
  filled bd Above Left hl ha -> 0 <= rw -> 0 <= rh -> In p angles -> p <> 90 -> p <> 180 ->
  s_len above = nA w h p -> s_len left = nL w h p ->
  (forall q, 0 <= q < nA w h p -> s_at above q = Above q) -> (forall q, 0 <= q < nL w h p -> s_at left (nL w h p - 1 - q) = Left q) ->
  tl = corner1 w h Above Left p ef Above (-1) -> 0 <= i < h -> 0 <= j < w ->
  pred_directional tb bd w h above left tl p (if ef then Some sm else None) rw rh i j =
    Some (Intra_spec.directional bd w h hl ha rw rh ef sm Above Left p i j) /\
  inr bd (Intra_spec.directional bd w h hl ha rw rh ef sm Above Left p i j).
Proof.
  intros Hb Hw Hh HA HL Hc HF Hrw Hrh Hp N1 N2 La Ll Sa Sl St Hi Hj.
  pose proof (angles_ok p Hp) as OK. unfold angle_ok in OK. apply andb_prop in OK. destruct OK as [PR _].
  rewrite directional_eq. unfold pred_directional.
  assert (Ua : forall b, bz b = 0 \/ bz b = 1) by (intros []; cbn; auto).
  destruct ef.
  - destruct (edges_filtered tb bd w h Hb Hw Hh Above Left hl ha HA HL Hc HF p rw rh true sm Hrw Hrh (conj N1 N2) above left tl La Ll Sa Sl St eq_refl)
      as (a & l & E & Na & Nl & Va & Vl).
    rewrite E. cbn [obind].
    assert (B1 : 1 <= nA w h p <= w + h) by (unfold nA; destruct (p <? 90); lia). assert (B2 : 1 <= nL w h p <= w + h) by (unfold nL; destruct (180 <? p); lia).
    apply (body_sound tb bd w h p _ _ tl true _ _ a (reverse l)); auto; try (clear - Hb; lia).
    + intros q Hq. eapply (Aedge_range tb); eauto.
    + intros q Hq. eapply (Ledge_range tb); eauto.
    + intros q Hq. rewrite rd_some; [f_equal; apply Va; exact Hq|]. pose proof (pow_u _ (Ua (upA w h p true sm))). split; [clear - Hq; lia|]. rewrite Na.
      assert (q + Z.shiftl 1 (bz (upA w h p true sm)) <= nA w h p * Z.shiftl 1 (bz (upA w h p true sm))) by (clear - Hq; lia).
      set (s := Z.shiftl 1 (bz (upA w h p true sm))) in *. clearbody s. clear - H H0 B1. nia.
    + intros q Hq. pose proof (pow_u _ (Ua (upL w h p true sm))). cbn [reverse s_len s_at].
      assert (q + Z.shiftl 1 (bz (upL w h p true sm)) <= nL w h p * Z.shiftl 1 (bz (upL w h p true sm))) by (clear - Hq; lia).
      assert (q + Z.shiftl 1 (bz (upL w h p true sm)) <= 2 * (w + h)) by (set (s := Z.shiftl 1 (bz (upL w h p true sm))) in *; clearbody s; clear - H H0 B2; nia).
      split; [clear - H1 Nl; lia|]. rewrite rd_some by (cbn [reverse s_len]; clear - H1 Nl Hq; lia). cbn [reverse s_at]. f_equal. rewrite <- Vl by exact Hq. f_equal. clear. lia.
  - cbn [directional_edges obind].
    assert (EA : forall q, Aedge bd w h Above Left ha p rw false sm q = Above q) by (intros q; unfold Aedge, A2, corner1; cbn [andb]; unfold fc; cbn; rewrite andb_false_r; reflexivity).
    assert (EL : forall q, Ledge bd w h Above Left hl p rh false sm q = Left q) by (intros q; unfold Ledge, L2, corner1; cbn [andb]; unfold fc; cbn; rewrite andb_false_r; reflexivity).
    apply (body_sound tb bd w h p 0 0 tl false _ _ above left); auto; try (clear - Hb; lia).
    + intros q Hq. rewrite EA. apply HA. cbn in Hq. clear - Hq. lia.
    + intros q Hq. rewrite EL. apply HL. cbn in Hq. clear - Hq. lia.
    + change (Z.shiftl 0 0) with 0. change (Z.shiftl 1 0) with 1. intros q Hq. rewrite EA, Z.add_0_r, rd_some by (rewrite La; clear - Hq; lia). f_equal. apply Sa. clear - Hq. lia.
    + change (Z.shiftl 0 0) with 0. change (Z.shiftl 1 0) with 1. intros q Hq. rewrite EL, Z.add_0_r, Ll. split; [clear - Hq; lia|]. rewrite rd_some by (rewrite Ll; clear - Hq; lia). f_equal. apply Sl. clear - Hq. lia.
    + intros _. rewrite EA, EL. rewrite Hc, St. unfold corner1, fc. cbn. auto.
Qed.
