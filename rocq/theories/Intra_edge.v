(** Intra prediction: the edge filter and the upsampling of the model are those of the
    specification. *)
From Verif Require Import Base Edge_model Intra_model.
From Verif Require Intra_spec.
Local Open Scope Z_scope.

Lemma strength_eq w h sm d : select_ief_strength w h sm d = Intra_spec.filter_strength w h sm d.
Proof. unfold select_ief_strength, Intra_spec.filter_strength. destruct sm; reflexivity. Qed.
Lemma strength_range w h sm d : 0 <= Intra_spec.filter_strength w h sm d <= 3.
Proof. unfold Intra_spec.filter_strength. repeat (match goal with |- context [if ?c then _ else _] => destruct c end; try lia). Qed.
Lemma upsample_sel_eq w h sm d : select_ief_upsample w h sm d = Intra_spec.use_upsample w h sm d.
Proof.
  unfold select_ief_upsample, Intra_spec.use_upsample. replace (Z.abs d <=? 0) with (Z.abs d =? 0) by lia.
  destruct ((Z.abs d =? 0) || (40 <=? Z.abs d)), sm; reflexivity.
Qed.
Lemma upsample_small w h sm d : Intra_spec.use_upsample w h sm d = true -> w + h <= 16.
Proof. unfold Intra_spec.use_upsample. destruct ((Z.abs d <=? 0) || (40 <=? Z.abs d)), sm; cbn [negb]; intros; try discriminate; lia. Qed.
Lemma dr_eq a : 0 <= a < 90 -> dr_intra_derivative a = Intra_spec.Dr_Intra_Derivative a.
Proof.
  intros H. assert (K : forallb (fun n => dr_intra_derivative (Z.of_nat n) =? Intra_spec.Dr_Intra_Derivative (Z.of_nat n)) (seq 0 90) = true) by (vm_compute; reflexivity).
  rewrite forallb_forall in K. specialize (K (Z.to_nat a)). rewrite Z2Nat.id in K by lia. apply Z.eqb_eq, K, in_seq. lia.
Qed.
Lemma cast_id tb bd v : 0 <= bd <= tb -> 0 <= v < 2 ^ bd -> cast tb v = v.
Proof. intros H V. unfold cast. apply Z.mod_small. pose proof (Z.pow_le_mono_r 2 bd tb). lia. Qed.
Lemma shr4_range M s : 0 <= s <= 16 * (M - 1) -> 0 <= Z.shiftr (s + 8) 4 < M.
Proof. intros H. rewrite Z.shiftr_div_pow2 by lia. change (2 ^ 4) with 16. dlia. Qed.
Lemma shr4_const c d : -8 <= d < 8 -> Z.shiftr (16 * c + d + 8) 4 = c.
Proof. intros H. rewrite Z.shiftr_div_pow2 by lia. change (2 ^ 4) with 16. dlia. Qed.

Definition inr (bd v : Z) : Prop := 0 <= v < 2 ^ bd.

(** ** The edge filter *)
Lemma kernel_cases s : 1 <= s <= 3 -> exists a b c, Intra_spec.kernel s 0 = a /\ Intra_spec.kernel s 1 = b /\ Intra_spec.kernel s 2 = c /\
  Intra_spec.kernel s 3 = b /\ Intra_spec.kernel s 4 = a /\ 2 * a + 2 * b + c = 16 /\ 0 <= a /\ 0 <= b /\ 0 <= c /\ a + b <= 6.
Proof. intros H. assert (s = 1 \/ s = 2 \/ s = 3) as [->|[->| ->]] by lia; [exists 0, 4, 8|exists 0, 5, 6|exists 2, 4, 4];
  (split; [reflexivity|]); (split; [reflexivity|]); (split; [reflexivity|]); (split; [reflexivity|]); (split; [reflexivity|]); lia. Qed.
Lemma edge_filter_range bd n sz st E : 0 <= st <= 3 -> sz <= n + 1 -> (forall p, -1 <= p < n -> inr bd (E p)) ->
  forall p, -1 <= p < n -> inr bd (Intra_spec.edge_filter sz st E p).
Proof.
  intros Hs Hz HE p Hp. unfold Intra_spec.edge_filter. destruct (Z.eqb_spec st 0); [apply HE, Hp|].
  destruct ((0 <=? p) && (p <? sz - 1)) eqn:C; [|apply HE, Hp].
  assert (K : forall q, inr bd (E (Intra_spec.Clip3 0 (sz - 1) q - 1))).
  { intros q. apply HE. unfold Intra_spec.Clip3. destruct (Z.ltb_spec q 0), (Z.ltb_spec (sz - 1) q); lia. }
  destruct (kernel_cases st ltac:(lia)) as (a & b & c & Ka & Kb & Kc & Kd & Ke & Ks & A & B & C' & _). cbn [Intra_spec.sum Z.of_nat Pos.of_succ_nat Pos.succ].
  rewrite Ka, Kb, Kc, Kd, Ke. unfold inr.
  pose proof (K (p + 1 - 2 + 0)) as K0. pose proof (K (p + 1 - 2 + 1)) as K1. pose proof (K (p + 1 - 2 + 2)) as K2. pose proof (K (p + 1 - 2 + 3)) as K3. pose proof (K (p + 1 - 2 + 4)) as K4.
  unfold inr in *.
  set (e0 := E (Intra_spec.Clip3 0 (sz - 1) (p + 1 - 2 + 0) - 1)) in *. set (e1 := E (Intra_spec.Clip3 0 (sz - 1) (p + 1 - 2 + 1) - 1)) in *.
  set (e2 := E (Intra_spec.Clip3 0 (sz - 1) (p + 1 - 2 + 2) - 1)) in *. set (e3 := E (Intra_spec.Clip3 0 (sz - 1) (p + 1 - 2 + 3) - 1)) in *.
  set (e4 := E (Intra_spec.Clip3 0 (sz - 1) (p + 1 - 2 + 4) - 1)) in *.
  clearbody e0 e1 e2 e3 e4. clear - Ks A B C' K0 K1 K2 K3 K4. apply shr4_range. set (M := 2 ^ bd) in *. clearbody M.
  assert (c = 16 - 2 * a - 2 * b) by lia. subst c. split; nia.
Qed.
Lemma filter_sound tb bd n sz st b E : 0 <= bd <= tb -> 0 <= st <= 3 -> sz <= n + 1 -> s_len b <= 257 -> n + 1 <= s_len b ->
  (forall p, -1 <= p < n -> inr bd (E p)) -> (forall p, -1 <= p < n -> s_at b (p + 1) = E p) ->
  exists b', filter_edge tb sz st b = Some b' /\ s_len b' = s_len b /\
    (forall p, -1 <= p < n -> s_at b' (p + 1) = Intra_spec.edge_filter sz st E p).
Proof.
  intros Hb Hs Hz Hl Hn HE HB. pose proof (edge_filter_range bd n sz st E Hs Hz HE) as RG. unfold filter_edge, Intra_spec.edge_filter in *.
  destruct (Z.eqb_spec st 0) as [S0|S0]; [exists b; auto|].
  unfold guard. replace ((s_len b <=? 257) && (sz <=? s_len b)) with true by lia.
  eexists. split; [reflexivity|]. split; [reflexivity|]. intros p Hp. cbn [s_at]. specialize (RG p Hp).
  replace ((1 <=? p + 1) && (p + 1 <? sz)) with ((0 <=? p) && (p <? sz - 1)) by lia.
  destruct ((0 <=? p) && (p <? sz - 1)) eqn:C; [|apply HB, Hp].
  assert (K : forall j, INTRA_EDGE_KERNEL st j * s_at b (Z.min (Z.max 0 (p + 1 + j - 2)) (sz - 1)) = Intra_spec.kernel st j * E (Intra_spec.Clip3 0 (sz - 1) (p + 1 - 2 + j) - 1)).
  { intros j. f_equal. rewrite <- HB.
    - f_equal. unfold Intra_spec.Clip3. destruct (Z.ltb_spec (p + 1 - 2 + j) 0), (Z.ltb_spec (sz - 1) (p + 1 - 2 + j)); lia.
    - unfold Intra_spec.Clip3. destruct (Z.ltb_spec (p + 1 - 2 + j) 0), (Z.ltb_spec (sz - 1) (p + 1 - 2 + j)); lia. }
  cbv zeta. rewrite !K. cbn [Intra_spec.sum Z.of_nat Pos.of_succ_nat Pos.succ] in RG |- *. apply (cast_id tb bd); [exact Hb|]. exact RG.
Qed.
(* a constant edge, with a corner that differs by one at most, is not changed *)
Lemma filter_const bd n sz st E c : 0 <= st <= 3 -> sz <= n + 1 -> (forall p, 0 <= p < n -> E p = c) -> -1 <= E (-1) - c <= 1 ->
  inr bd c -> forall p, -1 <= p < n -> Intra_spec.edge_filter sz st E p = E p.
Proof.
  intros Hs Hz HE HC Hc p Hp. unfold Intra_spec.edge_filter. destruct (Z.eqb_spec st 0); [reflexivity|].
  destruct ((0 <=? p) && (p <? sz - 1)) eqn:C; [|reflexivity].
  destruct (kernel_cases st ltac:(lia)) as (a & b & k & Ka & Kb & Kc & Kd & Ke & Ks & A & B & C' & AB). cbn [Intra_spec.sum Z.of_nat Pos.of_succ_nat Pos.succ].
  rewrite Ka, Kb, Kc, Kd, Ke.
  assert (K : forall q, 1 <= q -> E (Intra_spec.Clip3 0 (sz - 1) q - 1) = c).
  { intros q Hq. apply HE. unfold Intra_spec.Clip3. destruct (Z.ltb_spec q 0), (Z.ltb_spec (sz - 1) q); lia. }
  assert (K0 : forall q, q <= 0 -> E (Intra_spec.Clip3 0 (sz - 1) q - 1) = E (-1)).
  { intros q Hq. f_equal. unfold Intra_spec.Clip3. destruct (Z.ltb_spec q 0), (Z.ltb_spec (sz - 1) q); lia. }
  rewrite (K (p + 1 - 2 + 2)), (K (p + 1 - 2 + 3)), (K (p + 1 - 2 + 4)), (HE p) by lia.
  assert (Q0 : E (Intra_spec.Clip3 0 (sz - 1) (p + 1 - 2 + 0) - 1) = c \/ E (Intra_spec.Clip3 0 (sz - 1) (p + 1 - 2 + 0) - 1) = E (-1)).
  { destruct (Z.leb_spec (p + 1 - 2 + 0) 0); [right; apply K0; lia|left; apply K; lia]. }
  assert (Q1 : E (Intra_spec.Clip3 0 (sz - 1) (p + 1 - 2 + 1) - 1) = c \/ E (Intra_spec.Clip3 0 (sz - 1) (p + 1 - 2 + 1) - 1) = E (-1)).
  { destruct (Z.leb_spec (p + 1 - 2 + 1) 0); [right; apply K0; lia|left; apply K; lia]. }
  set (e0 := E (Intra_spec.Clip3 0 (sz - 1) (p + 1 - 2 + 0) - 1)) in *. set (e1 := E (Intra_spec.Clip3 0 (sz - 1) (p + 1 - 2 + 1) - 1)) in *.
  clearbody e0 e1. set (d := E (-1) - c) in *. assert (E (-1) = c + d) by (unfold d; lia). rewrite H in *. clearbody d.
  clear - Q0 Q1 HC Ks A B C' AB. replace k with (16 - 2 * a - 2 * b) by lia.
  assert (d = -1 \/ d = 0 \/ d = 1) as D by lia.
  destruct Q0 as [-> | ->], Q1 as [-> | ->].
  - replace (0 + a * c + b * c + (16 - 2 * a - 2 * b) * c + b * c + a * c + 8) with (16 * c + 0 + 8) by ring. apply shr4_const. lia.
  - replace (0 + a * c + b * (c + d) + (16 - 2 * a - 2 * b) * c + b * c + a * c + 8) with (16 * c + b * d + 8) by ring. apply shr4_const. destruct D as [->|[->| ->]]; lia.
  - replace (0 + a * (c + d) + b * c + (16 - 2 * a - 2 * b) * c + b * c + a * c + 8) with (16 * c + a * d + 8) by ring. apply shr4_const. destruct D as [->|[->| ->]]; lia.
  - replace (0 + a * (c + d) + b * (c + d) + (16 - 2 * a - 2 * b) * c + b * c + a * c + 8) with (16 * c + (a + b) * d + 8) by ring. apply shr4_const. destruct D as [->|[->| ->]]; lia.
Qed.

(** ** Upsampling *)
Lemma odd_mod p : Z.odd p = true -> p mod 2 = 1.
Proof. intros O. rewrite Zmod_odd, O. reflexivity. Qed.
Lemma clip1_range bd v : 0 <= bd -> inr bd (Intra_spec.Clip1 bd v).
Proof. intros H. unfold Intra_spec.Clip1, Intra_spec.Clip3, inr. pose proof (Z.pow_pos_nonneg 2 bd). destruct (Z.ltb_spec v 0), (Z.ltb_spec (2 ^ bd - 1) v); lia. Qed.
Lemma upsample_range bd n E : 0 <= bd -> 1 <= n -> (forall p, -1 <= p < n -> inr bd (E p)) ->
  forall p, -2 <= p <= 2 * n - 2 -> inr bd (Intra_spec.upsample bd n E p).
Proof.
  intros Hb Hn HE p Hp. unfold Intra_spec.upsample. cbv zeta. destruct (Z.eqb_spec p (-2)); [apply HE; lia|].
  destruct (Z.odd p) eqn:O; [apply clip1_range, Hb|].
  destruct (Z.eqb_spec (p / 2 + 2) 0); [apply HE; lia|]. destruct (Z.eqb_spec (p / 2 + 2) (n + 2)); [apply HE; lia|]. apply HE. dlia.
Qed.
Lemma quot_clamp M s : 0 < M -> clamp 0 (M - 1) (Z.quot (s + 8) 16) = Intra_spec.Clip3 0 (M - 1) (Intra_spec.Round2 s 4).
Proof.
  intros HM. unfold clamp, Intra_spec.Clip3, Intra_spec.Round2. cbn [Z.eqb]. change (Z.shiftl 1 (4 - 1)) with 8. rewrite Z.shiftr_div_pow2 by lia. change (2 ^ 4) with 16.
  destruct (Z.le_gt_cases 0 (s + 8)) as [P|P].
  - rewrite Z.quot_div_nonneg by lia. set (v := (s + 8) / 16) in *. destruct (Z.ltb_spec v 0), (Z.ltb_spec (M - 1) v); lia.
  - assert (Q : Z.quot (s + 8) 16 <= 0). { pose proof (Z.quot_opp_l (- (s + 8)) 16 ltac:(lia)) as Q. rewrite Z.opp_involutive in Q. rewrite Q, Z.quot_div_nonneg by lia. pose proof (Z.div_pos (- (s + 8)) 16). lia. }
    assert (D : (s + 8) / 16 < 0) by dlia. replace ((s + 8) / 16 <? 0) with true by lia. lia.
Qed.
Lemma upsample_sound tb bd n b E : 0 <= bd <= tb -> 1 <= n -> n + 3 <= 64 -> 2 * n < s_len b ->
  (forall p, -1 <= p < n -> inr bd (E p)) -> (forall p, -1 <= p < n -> s_at b (p + 1) = E p) ->
  exists b', upsample_edge tb bd n b = Some b' /\ s_len b' = s_len b /\
    (forall p, -2 <= p <= 2 * n - 2 -> s_at b' (p + 2) = Intra_spec.upsample bd n E p).
Proof.
  intros Hb Hn H64 HL HE HB. unfold upsample_edge, guard. replace ((n + 3 <=? 64) && (n <? s_len b) && (2 * n <? s_len b)) with true by lia.
  eexists. split; [reflexivity|]. split; [reflexivity|]. intros p Hp. cbn [s_at]. unfold Intra_spec.upsample. cbv zeta.
  set (dm := fun k => if k =? 0 then s_at b 0 else if k <=? n + 1 then s_at b (k - 1) else s_at b n).
  set (ds := fun k => if k =? 0 then E (-1) else if k =? n + 2 then E (n - 1) else E (k - 2)).
  assert (D : forall k, 0 <= k <= n + 2 -> dm k = ds k).
  { intros k Hk. unfold dm, ds. destruct (Z.eqb_spec k 0); [rewrite <- HB by lia; f_equal; lia|].
    destruct (Z.leb_spec k (n + 1)), (Z.eqb_spec k (n + 2)); try lia; rewrite <- HB by lia; f_equal; lia. }
  change (if 0 =? 0 then s_at b 0 else if 0 <=? n + 1 then s_at b (0 - 1) else s_at b n) with (dm 0).
  change (if 0 =? 0 then E (-1) else if 0 =? n + 2 then E (n - 1) else E (0 - 2)) with (ds 0).
  replace (p + 2 =? 0) with (p =? -2) by lia. destruct (Z.eqb_spec p (-2)); [apply D; lia|].
  replace (p + 2 <=? 2 * n) with true by lia. replace (Z.odd (p + 2)) with (Z.odd p) by (rewrite Z.odd_add; cbn; destruct (Z.odd p); reflexivity).
  destruct (Z.odd p) eqn:O.
  - replace (p + 2 - 1) with (p + 1) by lia. set (i := (p + 1) / 2).
    assert (I : 0 <= i <= n - 1). { unfold i. apply odd_mod in O. clear - O Hp n0. dlia. }
    fold (dm i) (dm (i + 1)) (dm (i + 2)) (dm (i + 3)). fold (ds i) (ds (i + 1)) (ds (i + 2)) (ds (i + 3)).
    rewrite !D by lia. unfold sample_max. rewrite quot_clamp by (apply Z.pow_pos_nonneg; lia). apply (cast_id tb bd); [exact Hb|]. apply (clip1_range bd). lia.
  - replace (p + 2 - 2) with p by lia. fold (dm (p / 2 + 2)) (ds (p / 2 + 2)). apply D. assert (p mod 2 = 0) by (rewrite Zmod_odd, O; reflexivity). clear - H Hp n0. dlia.
Qed.

(** ** Both edges of a directional prediction *)
Section Directional.
Variables (tb bd w h : Z).
Hypotheses (Hbd : 1 <= bd <= tb) (Hw : 4 <= w <= 64) (Hh : 4 <= h <= 64).
Variables (Above Left : Z -> Z) (hl ha : bool).
Hypothesis HA : forall p, -1 <= p -> inr bd (Above p).
Hypothesis HL : forall p, -1 <= p -> inr bd (Left p).
Hypothesis Hc : Left (-1) = Above (-1).
(* what 7.11.2 puts in place of missing edges *)
Definition filled : Prop :=
  (ha = false -> hl = true -> forall p, -1 <= p -> Above p = Left 0) /\
  (hl = false -> ha = true -> forall p, -1 <= p -> Left p = Above 0) /\
  (ha = false -> hl = false -> Above (-1) = 2 ^ (bd - 1) /\ forall p, 0 <= p -> Above p = 2 ^ (bd - 1) - 1 /\ Left p = 2 ^ (bd - 1) + 1).
Hypothesis HF : filled.

Section Angle.
Variables (p rw rh : Z) (ef sm : bool).
Hypotheses (Hrw : 0 <= rw) (Hrh : 0 <= rh) (Hdiag : p <> 90 /\ p <> 180).
Definition nA : Z := w + (if p <? 90 then h else 0).
Definition nL : Z := h + (if 180 <? p then w else 0).
Definition fc : bool := ef && (90 <? p) && (p <? 180) && (24 <=? w + h).
Definition corner1 (E : Z -> Z) (q : Z) : Z := if (q =? -1) && fc then Intra_spec.filter_corner Above Left else E q.
Definition upA : bool := ef && Intra_spec.use_upsample w h sm (p - 90).
Definition upL : bool := ef && Intra_spec.use_upsample w h sm (p - 180).
Definition szA : Z := Z.min w rw + (if p <? 90 then h else 0) + 1.
Definition szL : Z := Z.min h rh + (if 180 <? p then w else 0) + 1.
Definition diag : bool := ef && negb (p =? 90) && negb (p =? 180).
Definition A2 : Z -> Z := if diag && ha then Intra_spec.edge_filter szA (Intra_spec.filter_strength w h sm (p - 90)) (corner1 Above) else corner1 Above.
Definition L2 : Z -> Z := if diag && hl then Intra_spec.edge_filter szL (Intra_spec.filter_strength w h sm (p - 180)) (corner1 Left) else corner1 Left.
Definition Aedge : Z -> Z := if upA then Intra_spec.upsample bd nA A2 else A2.
Definition Ledge : Z -> Z := if upL then Intra_spec.upsample bd nL L2 else L2.
Definition bz (b : bool) : Z := if b then 1 else 0.

Lemma corner_range : inr bd (Intra_spec.filter_corner Above Left).
Proof.
  unfold Intra_spec.filter_corner, Intra_spec.Round2. cbn [Z.eqb]. change (Z.shiftl 1 (4 - 1)) with 8.
  pose proof (HL 0 ltac:(lia)). pose proof (HA (-1) ltac:(lia)). pose proof (HA 0 ltac:(lia)). unfold inr in *. apply shr4_range. lia.
Qed.
Lemma c1_range E : (forall q, -1 <= q -> inr bd (E q)) -> forall q, -1 <= q -> inr bd (corner1 E q).
Proof. intros H q Hq. unfold corner1. destruct ((q =? -1) && fc); [apply corner_range|apply H, Hq]. Qed.
Lemma corner_close : (ha = false \/ hl = false) -> corner1 Above (-1) = Above (-1).
Proof.
  intros M. unfold corner1. cbn [Z.eqb andb Pos.eqb]. destruct fc; [|reflexivity].
  destruct HF as (F1 & F2 & F3). unfold Intra_spec.filter_corner, Intra_spec.Round2. cbn [Z.eqb]. change (Z.shiftl 1 (4 - 1)) with 8.
  destruct ha, hl.
  - destruct M; discriminate.
  - specialize (F2 eq_refl eq_refl). rewrite <- Hc, !F2 by lia. replace (Above 0 * 5 + Above 0 * 6 + Above 0 * 5 + 8) with (16 * Above 0 + 0 + 8) by lia. apply shr4_const. lia.
  - specialize (F1 eq_refl eq_refl). rewrite !F1 by lia. replace (Left 0 * 5 + Left 0 * 6 + Left 0 * 5 + 8) with (16 * Left 0 + 0 + 8) by lia. apply shr4_const. lia.
  - destruct (F3 eq_refl eq_refl) as [F4 F5]. destruct (F5 0 ltac:(lia)) as [F6 F7]. rewrite F4, F6, F7. replace ((2 ^ (bd - 1) + 1) * 5 + 2 ^ (bd - 1) * 6 + (2 ^ (bd - 1) - 1) * 5 + 8) with (16 * 2 ^ (bd - 1) + 0 + 8) by lia. apply shr4_const. lia.
Qed.
Lemma c1_nonneg E q : 0 <= q -> corner1 E q = E q.
Proof. intros H. unfold corner1. replace (q =? -1) with false by lia. reflexivity. Qed.
Lemma corner1_both : corner1 Left (-1) = corner1 Above (-1).
Proof. unfold corner1. rewrite Hc. reflexivity. Qed.
Lemma szA_le : szA <= nA + 1. Proof. unfold szA, nA. lia. Qed.
Lemma szL_le : szL <= nL + 1. Proof. unfold szL, nL. lia. Qed.
(* the encoder filters a missing edge too *)
Lemma A2_always q : ef = true -> -1 <= q < nA -> Intra_spec.edge_filter szA (Intra_spec.filter_strength w h sm (p - 90)) (corner1 Above) q = A2 q.
Proof.
  intros He Hq. unfold A2, diag. rewrite He. replace (negb (p =? 90)) with true by lia. replace (negb (p =? 180)) with true by lia. cbn [andb].
  destruct ha eqn:Ha; [reflexivity|]. destruct HF as (F1 & F2 & F3).
  apply (filter_const bd nA _ _ _ (Above 0)); [apply strength_range|apply szA_le| | |apply HA; lia|exact Hq].
  - intros r Hr. rewrite c1_nonneg by lia. destruct hl; [rewrite !F1 by (auto; lia); reflexivity|]. destruct (F3 Ha eq_refl) as [_ F5]. rewrite (proj1 (F5 r ltac:(lia))), (proj1 (F5 0 ltac:(lia))). reflexivity.
  - rewrite corner_close by auto. destruct hl; [rewrite !F1 by (auto; lia); lia|]. destruct (F3 Ha eq_refl) as [F4 F5]. rewrite F4, (proj1 (F5 0 ltac:(lia))). lia.
Qed.
Lemma L2_always q : ef = true -> -1 <= q < nL -> Intra_spec.edge_filter szL (Intra_spec.filter_strength w h sm (p - 180)) (corner1 Left) q = L2 q.
Proof.
  intros He Hq. unfold L2, diag. rewrite He. replace (negb (p =? 90)) with true by lia. replace (negb (p =? 180)) with true by lia. cbn [andb].
  destruct hl eqn:Hl; [reflexivity|]. destruct HF as (F1 & F2 & F3).
  apply (filter_const bd nL _ _ _ (Left 0)); [apply strength_range|apply szL_le| | |apply HL; lia|exact Hq].
  - intros r Hr. rewrite c1_nonneg by lia. destruct ha; [rewrite !F2 by (auto; lia); reflexivity|]. destruct (F3 eq_refl Hl) as [_ F5]. rewrite (proj2 (F5 r ltac:(lia))), (proj2 (F5 0 ltac:(lia))). reflexivity.
  - rewrite corner1_both, corner_close by auto. destruct ha; [rewrite <- Hc, !F2 by (auto; lia); lia|]. destruct (F3 eq_refl Hl) as [F4 F5]. rewrite F4, (proj2 (F5 0 ltac:(lia))). lia.
Qed.
Lemma A2_range q : -1 <= q < nA -> inr bd (A2 q).
Proof. intros Hq. unfold A2. destruct (diag && ha); [apply (edge_filter_range bd nA); [apply strength_range|apply szA_le| |exact Hq]; intros; apply c1_range; [exact HA|lia]|apply c1_range; [exact HA|lia]]. Qed.
Lemma L2_range q : -1 <= q < nL -> inr bd (L2 q).
Proof. intros Hq. unfold L2. destruct (diag && hl); [apply (edge_filter_range bd nL); [apply strength_range|apply szL_le| |exact Hq]; intros; apply c1_range; [exact HL|lia]|apply c1_range; [exact HL|lia]]. Qed.
Lemma nA_pos : 1 <= nA. Proof. unfold nA. destruct (p <? 90); lia. Qed.
Lemma nL_pos : 1 <= nL. Proof. unfold nL. destruct (180 <? p); lia. Qed.
Lemma Aedge_range q : - Z.shiftl 1 (bz upA) <= q <= (nA - 1) * Z.shiftl 1 (bz upA) -> inr bd (Aedge q).
Proof.
  intros Hq. unfold Aedge. destruct upA; cbn in Hq.
  - apply upsample_range; [lia|apply nA_pos|apply A2_range|lia].
  - apply A2_range. lia.
Qed.
Lemma Ledge_range q : - Z.shiftl 1 (bz upL) <= q <= (nL - 1) * Z.shiftl 1 (bz upL) -> inr bd (Ledge q).
Proof.
  intros Hq. unfold Ledge. destruct upL; cbn in Hq.
  - apply upsample_range; [lia|apply nL_pos|apply L2_range|lia].
  - apply L2_range. lia.
Qed.

(* the slices hold the edges of the specification *)
Variables (above left : slice) (tl : Z).
Hypotheses (La : s_len above = nA) (Ll : s_len left = nL).
Hypothesis Sa : forall q, 0 <= q < nA -> s_at above q = Above q.
Hypothesis Sl : forall q, 0 <= q < nL -> s_at left (nL - 1 - q) = Left q.
Hypothesis Stl : tl = corner1 Above (-1).

Theorem edges_filtered : ef = true -> exists a l,
  directional_edges tb bd w h above left tl p (Some sm) rw rh = Some (a, reverse l, bz upA, bz upL) /\
  s_len a = 2 * (w + h) + 1 /\ s_len l = 2 * (w + h) + 1 /\
  (forall q, - Z.shiftl 1 (bz upA) <= q <= (nA - 1) * Z.shiftl 1 (bz upA) -> s_at a (q + Z.shiftl 1 (bz upA)) = Aedge q) /\
  (forall q, - Z.shiftl 1 (bz upL) <= q <= (nL - 1) * Z.shiftl 1 (bz upL) -> s_at l (q + Z.shiftl 1 (bz upL)) = Ledge q).
Proof.
  intros He.
  pose proof A2_range as RA. pose proof L2_range as RL.
  assert (BA : nA <= w + h) by (unfold nA; destruct (p <? 90); lia). assert (BL : nL <= w + h) by (unfold nL; destruct (180 <? p); lia).
  pose proof nA_pos as PA. pose proof nL_pos as PL.
  unfold directional_edges, guard. replace ((w + h) * 2 + 1 <=? 257) with true by lia.
  replace (negb (p =? 90) && negb (p =? 180)) with true by lia. rewrite La, Ll.
  set (af := mkSlice ((w + h) * 2 + 1) (fun i => if (1 <=? i) && (i <=? Z.min nA ((w + h) * 2 + 1 - 1)) then s_at above (i - 1) else if i =? 0 then tl else 0)).
  set (lf := mkSlice ((w + h) * 2 + 1) (fun i => if (1 <=? i) && (i <=? Z.min nL ((w + h) * 2 + 1 - 1)) then s_at left (nL - i) else if i =? 0 then tl else 0)).
  cbv zeta. replace (0 <=? rw) with true by lia. replace (0 <=? rh) with true by lia. fold szA szL. rewrite !strength_eq, !upsample_sel_eq.
  assert (Ka : forall q, -1 <= q < nA -> s_at af (q + 1) = corner1 Above q).
  { intros q Hq. unfold af. cbn [s_at]. destruct (Z.eq_dec q (-1)) as [->|N]; [cbn; exact Stl|].
    replace ((1 <=? q + 1) && (q + 1 <=? Z.min nA ((w + h) * 2 + 1 - 1))) with true by lia. rewrite c1_nonneg by lia. rewrite <- Sa by lia. f_equal. lia. }
  assert (Kl : forall q, -1 <= q < nL -> s_at lf (q + 1) = corner1 Left q).
  { intros q Hq. unfold lf. cbn [s_at]. destruct (Z.eq_dec q (-1)) as [->|N]; [cbn [Z.add Z.opp Pos.add]; cbn; rewrite corner1_both; exact Stl|].
    replace ((1 <=? q + 1) && (q + 1 <=? Z.min nL ((w + h) * 2 + 1 - 1))) with true by lia. rewrite c1_nonneg by lia. rewrite <- Sl by lia. f_equal. lia. }
  destruct (filter_sound tb bd nA szA (Intra_spec.filter_strength w h sm (p - 90)) af (corner1 Above)) as (a1 & Ea & Na & Va);
    [lia|apply strength_range|apply szA_le|cbn; lia|cbn; lia|intros; apply c1_range; [exact HA|lia]|exact Ka|].
  destruct (filter_sound tb bd nL szL (Intra_spec.filter_strength w h sm (p - 180)) lf (corner1 Left)) as (l1 & El & Nl & Vl);
    [lia|apply strength_range|apply szL_le|cbn; lia|cbn; lia|intros; apply c1_range; [exact HL|lia]|exact Kl|].
  rewrite Ea, El. cbn [obind]. cbn [s_len af] in Na. cbn [s_len lf] in Nl.
  assert (Va' : forall q, -1 <= q < nA -> s_at a1 (q + 1) = A2 q) by (intros q Hq; rewrite Va by exact Hq; apply A2_always; auto).
  assert (Vl' : forall q, -1 <= q < nL -> s_at l1 (q + 1) = L2 q) by (intros q Hq; rewrite Vl by exact Hq; apply L2_always; auto).
  assert (UA : Intra_spec.use_upsample w h sm (p - 90) = upA) by (unfold upA; rewrite He; reflexivity).
  assert (UL : Intra_spec.use_upsample w h sm (p - 180) = upL) by (unfold upL; rewrite He; reflexivity).
  assert (XA : exists a2, (if upA then upsample_edge tb bd nA a1 else Some a1) = Some a2 /\ s_len a2 = 2 * (w + h) + 1 /\
     (forall q, - Z.shiftl 1 (bz upA) <= q <= (nA - 1) * Z.shiftl 1 (bz upA) -> s_at a2 (q + Z.shiftl 1 (bz upA)) = Aedge q)).
  { unfold Aedge. destruct upA eqn:U; cbn [bz].
    - pose proof (upsample_small _ _ _ _ UA). destruct (upsample_sound tb bd nA a1 A2) as (a2 & E2 & N2 & V2); [clear - Hbd; lia|exact PA|clear - H BA; lia|clear - Na BA Hw Hh; lia|exact RA|exact Va'|].
      exists a2. split; [exact E2|]. split; [clear - N2 Na; lia|]. cbn. intros q Hq. apply V2. clear - Hq; lia.
    - exists a1. split; [reflexivity|]. split; [clear - Na; lia|]. cbn. intros q Hq. apply Va'. clear - Hq; lia. }
  assert (XL : exists l2, (if upL then upsample_edge tb bd nL l1 else Some l1) = Some l2 /\ s_len l2 = 2 * (w + h) + 1 /\
     (forall q, - Z.shiftl 1 (bz upL) <= q <= (nL - 1) * Z.shiftl 1 (bz upL) -> s_at l2 (q + Z.shiftl 1 (bz upL)) = Ledge q)).
  { unfold Ledge. destruct upL eqn:U; cbn [bz].
    - pose proof (upsample_small _ _ _ _ UL). destruct (upsample_sound tb bd nL l1 L2) as (a2 & E2 & N2 & V2); [clear - Hbd; lia|exact PL|clear - H BL; lia|clear - Nl BL Hw Hh; lia|exact RL|exact Vl'|].
      exists a2. split; [exact E2|]. split; [clear - N2 Nl; lia|]. cbn. intros q Hq. apply V2. clear - Hq; lia.
    - exists l1. split; [reflexivity|]. split; [clear - Nl; lia|]. cbn. intros q Hq. apply Vl'. clear - Hq; lia. }
  destruct XA as (a2 & EA & NA & VA), XL as (l2 & EL & NL & VL).
  rewrite UA, UL. unfold nA in EA. unfold nL in EL. rewrite EA, EL. cbn [obind]. exists a2, l2. split; [reflexivity|]. auto.
Qed.
End Angle.
End Directional.
