(** The kernels of the encoder's deblocking filter against the specification. *)
From Verif Require Import Deblock_model.
From Verif Require Deblock_spec.
Open Scope Z_scope.
Open Scope list_scope.
Module Spec := Deblock_spec.

Lemma ceil_le d k n : 0 < k -> ((d + k - 1) / k <= n <-> d <= n * k).
Proof.
  intros K. pose proof (Z.div_mod (d + k - 1) k ltac:(lia)). pose proof (Z.mod_pos_bound (d + k - 1) k K).
  split; intros; nia.
Qed.
Lemma limit_le d sh n : 0 <= sh -> (limit_to_level d sh <= n <-> d <= n * 2 ^ sh).
Proof.
  intros S. unfold limit_to_level. rewrite Z.shiftl_mul_pow2, Z.shiftr_div_pow2, Z.mul_1_l by lia.
  apply ceil_le. apply Z.pow_pos_nonneg; lia.
Qed.
Lemma limit_nonneg d sh : 0 <= sh -> 0 <= d -> 0 <= limit_to_level d sh.
Proof.
  intros S D. unfold limit_to_level. rewrite Z.shiftl_mul_pow2, Z.shiftr_div_pow2, Z.mul_1_l by lia.
  pose proof (Z.pow_pos_nonneg 2 sh ltac:(lia) S). apply Z.div_pos; lia.
Qed.
Lemma blimit_le d sh n : 0 <= sh -> 0 <= d -> 0 <= n -> (blimit_to_level d sh <= n <-> d <= (3 * n + 4) * 2 ^ sh).
Proof.
  intros S D N. unfold blimit_to_level. fold (limit_to_level d sh).
  pose proof (limit_nonneg d sh S D) as L. rewrite <- limit_le by lia.
  set (c := limit_to_level d sh) in *.
  destruct (Z_lt_le_dec c 2).
  - assert (Z.quot (c - 2) 3 = 0). { assert (c = 0 \/ c = 1) as [->| ->] by lia; reflexivity. } lia.
  - rewrite Z.quot_div_nonneg by lia. split; intros; dlia.
Qed.
Lemma thresh_le d sh n : 0 <= sh -> (thresh_to_level d sh <= n <-> d <= n / 16 * 2 ^ sh).
Proof.
  intros S. unfold thresh_to_level. fold (limit_to_level d sh). rewrite <- limit_le by lia.
  rewrite Z.shiftl_mul_pow2 by lia. change (2 ^ 4) with 16. split; intros; dlia.
Qed.

Lemma clamp_range x lo hi : lo <= hi -> lo <= clamp x lo hi <= hi.
Proof. unfold clamp. intros. destruct (Z.ltb_spec x lo), (Z.ltb_spec hi x); lia. Qed.
Lemma avg_range n d x hi : 0 <= x -> x <= d * hi + n -> 0 <= n < d -> 0 <= x / d <= hi.
Proof. intros. split; [apply Z.div_pos; lia|]. apply Z.lt_succ_r. apply Z.div_lt_upper_bound; lia. Qed.

Section Line.
Variables (bd level : Z).
Hypothesis (B : 8 <= bd) (L : 1 <= level).
Let K := 2 ^ (bd - 8).
Local Lemma Kpos : 0 < K. Proof. apply Z.pow_pos_nonneg; lia. Qed.
Local Lemma bd_pow : 2 ^ bd = 256 * K.
Proof. unfold K. change 256 with (2 ^ 8). rewrite <- Z.pow_add_r by lia. f_equal. lia. Qed.
Local Lemma bd_pow1 : 2 ^ (bd - 1) = 128 * K.
Proof. unfold K. change 128 with (2 ^ 7). rewrite <- Z.pow_add_r by lia. f_equal. lia. Qed.
Lemma shl_K x : Spec.shl bd x = x * K. Proof. reflexivity. Qed.
Lemma shiftl_K x : Z.shiftl x (bd - 8) = x * K. Proof. rewrite Z.shiftl_mul_pow2 by lia. reflexivity. Qed.

Lemma mask4_iff p1 p0 q0 q1 :
  mask4 p1 p0 q0 q1 (bd - 8) <= level <->
  Z.abs (p1 - p0) <= level * K /\ Z.abs (q1 - q0) <= level * K /\
  Z.abs (p0 - q0) * 2 + Z.abs (p1 - q1) / 2 <= (3 * level + 4) * K.
Proof.
  unfold mask4. rewrite Z.max_lub_iff, limit_le, blimit_le, Z.max_lub_iff by (try rewrite Z.quot_div_nonneg; dlia).
  rewrite Z.quot_div_nonneg by lia. tauto.
Qed.
Lemma mask6_iff p2 p1 p0 q0 q1 q2 :
  mask6 p2 p1 p0 q0 q1 q2 (bd - 8) <= level <->
  Z.abs (p1 - p0) <= level * K /\ Z.abs (q1 - q0) <= level * K /\
  Z.abs (p0 - q0) * 2 + Z.abs (p1 - q1) / 2 <= (3 * level + 4) * K /\
  Z.abs (p2 - p1) <= level * K /\ Z.abs (q2 - q1) <= level * K.
Proof.
  unfold mask6. rewrite Z.max_lub_iff, limit_le, blimit_le by (try rewrite Z.quot_div_nonneg; dlia).
  rewrite !Z.max_lub_iff.
  rewrite Z.quot_div_nonneg by lia. tauto.
Qed.
Lemma mask8_iff p3 p2 p1 p0 q0 q1 q2 q3 :
  mask8 p3 p2 p1 p0 q0 q1 q2 q3 (bd - 8) <= level <->
  Z.abs (p1 - p0) <= level * K /\ Z.abs (q1 - q0) <= level * K /\
  Z.abs (p0 - q0) * 2 + Z.abs (p1 - q1) / 2 <= (3 * level + 4) * K /\
  Z.abs (p2 - p1) <= level * K /\ Z.abs (q2 - q1) <= level * K /\
  Z.abs (p3 - p2) <= level * K /\ Z.abs (q3 - q2) <= level * K.
Proof.
  unfold mask8. rewrite Z.max_lub_iff, limit_le, blimit_le by (try rewrite Z.quot_div_nonneg; dlia).
  rewrite !Z.max_lub_iff.
  rewrite Z.quot_div_nonneg by lia. tauto.
Qed.
Lemma nhev4_iff p1 p0 q0 q1 :
  nhev4 p1 p0 q0 q1 (bd - 8) <= level <->
  Z.abs (p1 - p0) <= level / 16 * K /\ Z.abs (q1 - q0) <= level / 16 * K.
Proof. unfold nhev4. rewrite thresh_le, Z.max_lub_iff by lia. tauto. Qed.

Section Taps.
Variables (pl fs : Z) (s : Z -> Z).
Let p := Spec.p s.
Let q := Spec.q s.
Lemma limit_is : Spec.limit level = level. Proof. unfold Spec.limit. lia. Qed.
Lemma blimit_is : Spec.blimit level = 3 * level + 4. Proof. unfold Spec.blimit. rewrite limit_is. lia. Qed.
Lemma hev_spec : Spec.hevMask bd level s = negb (nhev4 (p 1) (p 0) (q 0) (q 1) (bd - 8) <=? level).
Proof.
  unfold Spec.hevMask. rewrite !shl_K. unfold Spec.thresh. change (2 ^ 4) with 16. fold p q.
  pose proof (nhev4_iff (p 1) (p 0) (q 0) (q 1)) as H. apply Bool.eq_true_iff_eq.
  rewrite negb_true_iff, orb_true_iff, Z.leb_gt, !Z.ltb_lt. lia.
Qed.
Lemma mask_spec4 : Spec.filterLen pl fs = 4 ->
  Spec.filterMask pl fs bd level s = (mask4 (p 1) (p 0) (q 0) (q 1) (bd - 8) <=? level).
Proof.
  intros F. unfold Spec.filterMask. rewrite F, limit_is, blimit_is, !shl_K. fold p q.
  pose proof (mask4_iff (p 1) (p 0) (q 0) (q 1)) as H.
  change (6 <=? 4) with false. change (8 <=? 4) with false.
  apply Bool.eq_true_iff_eq. rewrite negb_true_iff, !orb_false_iff, !Z.leb_le, !Z.ltb_ge. tauto.
Qed.
Lemma mask_spec6 : Spec.filterLen pl fs = 6 ->
  Spec.filterMask pl fs bd level s = (mask6 (p 2) (p 1) (p 0) (q 0) (q 1) (q 2) (bd - 8) <=? level).
Proof.
  intros F. unfold Spec.filterMask. rewrite F, limit_is, blimit_is, !shl_K. fold p q.
  pose proof (mask6_iff (p 2) (p 1) (p 0) (q 0) (q 1) (q 2)) as H.
  change (6 <=? 6) with true. change (8 <=? 6) with false. cbn [andb].
  apply Bool.eq_true_iff_eq. rewrite negb_true_iff, !orb_false_iff, !Z.leb_le, !Z.ltb_ge. tauto.
Qed.
Lemma mask_spec8 : 8 <= Spec.filterLen pl fs ->
  Spec.filterMask pl fs bd level s =
  (mask8 (p 3) (p 2) (p 1) (p 0) (q 0) (q 1) (q 2) (q 3) (bd - 8) <=? level).
Proof.
  intros F. unfold Spec.filterMask. rewrite limit_is, blimit_is, !shl_K. fold p q.
  pose proof (mask8_iff (p 3) (p 2) (p 1) (p 0) (q 0) (q 1) (q 2) (q 3)) as H.
  rewrite (proj2 (Z.leb_le 6 _)), (proj2 (Z.leb_le 8 _)) by lia. cbn [andb].
  apply Bool.eq_true_iff_eq. rewrite negb_true_iff, !orb_false_iff, !Z.leb_le, !Z.ltb_ge. tauto.
Qed.
Lemma near_iff a b : Spec.near bd a b = (Z.abs (a - b) <=? K).
Proof. unfold Spec.near. rewrite shl_K, Z.mul_1_l. reflexivity. Qed.
Lemma leb_max a b k : (Z.max a b <=? k) = (a <=? k) && (b <=? k).
Proof. apply Bool.eq_true_iff_eq. rewrite andb_true_iff, !Z.leb_le. lia. Qed.
Lemma flat6_spec : Spec.filterLen pl fs = 6 -> 8 <= fs ->
  Spec.flatMask pl fs bd s = (flat6 (p 2) (p 1) (p 0) (q 0) (q 1) (q 2) <=? Z.shiftl 1 (bd - 8)).
Proof.
  intros F F8. unfold Spec.flatMask, flat6. rewrite F, !near_iff, shiftl_K, Z.mul_1_l, !leb_max. fold p q.
  change (8 <=? 6) with false. rewrite (proj2 (Z.leb_le 8 fs)) by lia.
  cbn [andb]. rewrite !andb_true_r, !andb_assoc. reflexivity.
Qed.
Lemma flat8_spec : 8 <= Spec.filterLen pl fs -> 8 <= fs ->
  Spec.flatMask pl fs bd s =
  (flat8 (p 3) (p 2) (p 1) (p 0) (q 0) (q 1) (q 2) (q 3) <=? Z.shiftl 1 (bd - 8)).
Proof.
  intros F F8. unfold Spec.flatMask, flat8. rewrite !near_iff, shiftl_K, Z.mul_1_l, !leb_max. fold p q.
  rewrite (proj2 (Z.leb_le 8 fs)), (proj2 (Z.leb_le 8 (Spec.filterLen pl fs))) by lia.
  cbn [andb]. rewrite !andb_assoc. reflexivity.
Qed.
Lemma flat14_spec : 16 <= fs ->
  Spec.flatMask2 fs bd s =
  (flat14_outer (p 6) (p 5) (p 4) (p 0) (q 0) (q 4) (q 5) (q 6) <=? Z.shiftl 1 (bd - 8)).
Proof.
  intros F. unfold Spec.flatMask2, flat14_outer. rewrite !near_iff, shiftl_K, Z.mul_1_l, !leb_max. fold p q.
  rewrite (proj2 (Z.leb_le 16 fs)) by lia. cbn [andb].
  repeat match goal with |- context [?a <=? K] => destruct (a <=? K) end; reflexivity.
Qed.

(** the filters *)
Lemma clamp_twice x k : 0 <= k < 8 ->
  Spec.filter4_clamp bd (Spec.filter4_clamp bd x + k) / 2 ^ 3 =
  Z.shiftr (clamp (x + k) (- Z.shiftl 128 (bd - 8)) (Z.shiftl 128 (bd - 8) - 1)) 3.
Proof.
  intros Hk. pose proof Kpos as KP. rewrite !shiftl_K, Z.shiftr_div_pow2 by lia. change (2 ^ 3) with 8.
  unfold Spec.filter4_clamp, Spec.Clip3, clamp. rewrite bd_pow1.
  destruct (Z.ltb_spec x (- (128 * K))); [|destruct (Z.ltb_spec (128 * K - 1) x)];
    destruct (Z.ltb_spec (x + k) (- (128 * K))); try destruct (Z.ltb_spec (128 * K - 1) (x + k));
    repeat match goal with |- context [?a <? ?b] => destruct (Z.ltb_spec a b) end; dlia.
Qed.
Lemma clamp_mid x : Spec.filter4_clamp bd (x - 128 * K) + 128 * K = clamp x 0 (Z.shiftl 256 (bd - 8) - 1).
Proof.
  rewrite !shiftl_K. unfold Spec.filter4_clamp, Spec.Clip3, clamp. rewrite bd_pow1.
  repeat match goal with |- context [?a <? ?b] => destruct (Z.ltb_spec a b) end; lia.
Qed.
Lemma clamp_mid_eq x y : y = x - 128 * K -> Spec.filter4_clamp bd y + 128 * K = clamp x 0 (Z.shiftl 256 (bd - 8) - 1).
Proof. intros ->. apply clamp_mid. Qed.
Lemma clamp_same x : Spec.filter4_clamp bd x = clamp x (- Z.shiftl 128 (bd - 8)) (Z.shiftl 128 (bd - 8) - 1).
Proof. rewrite !shiftl_K. unfold Spec.filter4_clamp, Spec.Clip3, clamp. rewrite bd_pow1. reflexivity. Qed.
Lemma narrow_spec :
  map (Spec.narrow bd level s) [-2; -1; 0; 1] =
  if nhev4 (p 1) (p 0) (q 0) (q 1) (bd - 8) <=? level then filter_narrow4_4 (p 1) (p 0) (q 0) (q 1) (bd - 8)
  else filter_narrow2_4 (p 1) (p 0) (q 0) (q 1) (bd - 8).
Proof.
  cbn [map]. unfold Spec.narrow. rewrite hev_spec. rewrite shl_K. fold p q.
  destruct (nhev4 _ _ _ _ _ <=? level) eqn:N; cbn [negb Z.eqb Z.opp Pos.eqb].
  - rewrite !clamp_twice by lia. unfold filter_narrow4_4.
    replace (0 + 3 * (q 0 - 128 * K - (p 0 - 128 * K))) with (3 * (q 0 - p 0)) by lia.
    f_equal; [|f_equal; [|f_equal; [|f_equal]]]; apply clamp_mid_eq; unfold Spec.Round2;
      rewrite ?(Z.shiftr_div_pow2 (_ + 1)) by lia; change (2 ^ 1 / 2) with 1; lia.
  - rewrite !clamp_twice by lia. unfold filter_narrow2_4. rewrite (clamp_same (p 1 - 128 * K - _)).
    replace (p 1 - 128 * K - (q 1 - 128 * K)) with (p 1 - q 1) by lia.
    replace (3 * (q 0 - 128 * K - (p 0 - 128 * K))) with (3 * (q 0 - p 0)) by lia.
    f_equal. f_equal; [|f_equal]; apply clamp_mid_eq; lia.
Qed.
Lemma narrow_far i : i < -2 \/ 1 < i -> Spec.narrow bd level s i = s i.
Proof.
  intros I. unfold Spec.narrow.
  rewrite (proj2 (Z.eqb_neq i 0)), (proj2 (Z.eqb_neq i (-1))), (proj2 (Z.eqb_neq i 1)), (proj2 (Z.eqb_neq i (-2))) by lia.
  destruct (Spec.hevMask _ _ _); reflexivity.
Qed.
Lemma wide14_spec : map (Spec.wide pl s 4) [-6; -5; -4; -3; -2; -1; 0; 1; 2; 3; 4; 5] =
  filter_wide14_12 (p 6) (p 5) (p 4) (p 3) (p 2) (p 1) (p 0) (q 0) (q 1) (q 2) (q 3) (q 4) (q 5) (q 6).
Proof.
  unfold Spec.wide, Spec.Round2, filter_wide14_12. rewrite !Z.shiftr_div_pow2 by lia. change (4 =? 4) with true. cbv iota zeta.
  change (map (fun k => Z.of_nat k - 6) (seq 0 (Z.to_nat (2 * 6 + 1)))) with [-6; -5; -4; -3; -2; -1; 0; 1; 2; 3; 4; 5; 6]. cbn.
  unfold p, q, Spec.p, Spec.q; cbn.
  repeat (apply f_equal2; [apply (f_equal (fun x => x / _)); lia|]). reflexivity.
Qed.
Lemma wide8_spec : pl = 0 -> map (Spec.wide pl s 3) [-3; -2; -1; 0; 1; 2] =
  filter_wide8_6 (p 3) (p 2) (p 1) (p 0) (q 0) (q 1) (q 2) (q 3).
Proof.
  intros ->. unfold Spec.wide, Spec.Round2, filter_wide8_6. rewrite !Z.shiftr_div_pow2 by lia. change (3 =? 4) with false. change (0 =? 0) with true. cbv iota zeta.
  change (map (fun k => Z.of_nat k - 3) (seq 0 (Z.to_nat (2 * 3 + 1)))) with [-3; -2; -1; 0; 1; 2; 3]. cbn.
  unfold p, q, Spec.p, Spec.q; cbn.
  repeat (apply f_equal2; [apply (f_equal (fun x => x / _)); lia|]). reflexivity.
Qed.
Lemma wide6_spec : pl <> 0 -> map (Spec.wide pl s 3) [-2; -1; 0; 1] =
  filter_wide6_4 (p 2) (p 1) (p 0) (q 0) (q 1) (q 2).
Proof.
  intros H. unfold Spec.wide, Spec.Round2, filter_wide6_4. rewrite (proj2 (Z.eqb_neq pl 0) H).
  rewrite !Z.shiftr_div_pow2 by lia. change (3 =? 4) with false. cbv iota zeta.
  change (map (fun k => Z.of_nat k - 2) (seq 0 (Z.to_nat (2 * 2 + 1)))) with [-2; -1; 0; 1; 2]. cbn.
  unfold p, q, Spec.p, Spec.q; cbn.
  repeat (apply f_equal2; [apply (f_equal (fun x => x / _)); lia|]). reflexivity.
Qed.
Lemma wide_far log2Size i :
  (let n := if log2Size =? 4 then 6 else if pl =? 0 then 3 else 2 in i < - n \/ n <= i) ->
  Spec.wide pl s log2Size i = s i.
Proof.
  intros I. unfold Spec.wide. cbv zeta in I. set (n := if log2Size =? 4 then _ else _) in *.
  replace ((- n <=? i) && (i <? n)) with false; [reflexivity|]. symmetry. apply andb_false_iff.
  rewrite Z.leb_gt, Z.ltb_ge. lia.
Qed.
End Taps.

(** ** The whole kernel *)
Definition kernel_of (pl fs : Z) : Z := if fs =? 4 then 4 else if pl =? 0 then if fs =? 8 then 8 else 14 else 6.
Definition fs_ok (pl fs : Z) : Prop := fs = 4 \/ fs = 8 \/ (fs = 16 /\ pl = 0).

Lemma nth_map_at {T} (f : Z -> T) l n d x : nth_error l n = Some x -> nth n (map f l) d = f x.
Proof. intros E. apply nth_error_nth. apply map_nth_error, E. Qed.

(** a list of new pixels as the specification's function *)
Definition agrees (f s : Z -> Z) (half off : Z) (l : list Z) : Prop :=
  l = map f (map (fun k => Z.of_nat k + off - half) (seq 0 (length l))) /\
  forall i, i < off - half \/ off - half + zlen l <= i -> f i = s i.

Lemma agrees_pad f s half off l : agrees f s half (off + 1) l -> agrees f s half off (s (off - half) :: l ++ [s (off - half + 1 + zlen l)]).
Proof.
  intros [E F]. split.
  - cbn [length seq map]. f_equal; [symmetry; replace (Z.of_nat 0 + off - half) with (off - half) by lia; apply F; lia|].
    rewrite app_length. cbn [length]. rewrite Nat.add_1_r. rewrite <- (Nat.add_1_r (length l)), seq_app, !map_app.
    cbn [map seq]. f_equal.
    + etransitivity; [exact E|]. f_equal. rewrite <- seq_shift, map_map. apply map_ext. intros k. lia.
    + f_equal. unfold zlen. replace (Z.of_nat (1 + length l) + off - half) with (off - half + 1 + Z.of_nat (length l)) by lia.
      symmetry. apply F. unfold zlen. lia.
  - intros i I. apply F. rewrite zlen_cons, zlen_app, zlen_cons, zlen_nil in I. lia.
Qed.
Lemma agrees_intro f s half off l :
  l = map f (map (fun k => Z.of_nat k + off - half) (seq 0 (length l))) ->
  (forall i, i < off - half \/ off - half + zlen l <= i -> f i = s i) -> agrees f s half off l.
Proof. split; assumption. Qed.

Section Kernel.
Variables (pl fs : Z) (s : Z -> Z).
Hypothesis FS : fs_ok pl fs.
Let size := kernel_of pl fs.
Let half := size / 2.

Ltac taps_norm := cbv beta;
  repeat match goal with |- context [s (?a - ?b)] => let c := eval compute in (a - b) in change (s (a - b)) with (s c) end.
Ltac name_taps :=
  change (Spec.p s 0) with (s (-1)) in *; change (Spec.p s 1) with (s (-2)) in *;
  change (Spec.p s 2) with (s (-3)) in *; change (Spec.p s 3) with (s (-4)) in *;
  change (Spec.p s 4) with (s (-5)) in *; change (Spec.p s 5) with (s (-6)) in *;
  change (Spec.p s 6) with (s (-7)) in *;
  change (Spec.q s 0) with (s 0) in *; change (Spec.q s 1) with (s 1) in *;
  change (Spec.q s 2) with (s 2) in *; change (Spec.q s 3) with (s 3) in *;
  change (Spec.q s 4) with (s 4) in *; change (Spec.q s 5) with (s 5) in *;
  change (Spec.q s 6) with (s 6) in *.

Definition nar := if nhev4 (s (-2)) (s (-1)) (s 0) (s 1) (bd - 8) <=? level
  then filter_narrow4_4 (s (-2)) (s (-1)) (s 0) (s 1) (bd - 8) else filter_narrow2_4 (s (-2)) (s (-1)) (s 0) (s 1) (bd - 8).
Lemma nar_agrees half0 off : half0 = off + 2 -> agrees (Spec.narrow bd level s) s half0 off nar /\ length nar = 4%nat.
Proof.
  intros ->. pose proof (narrow_spec s) as NS. name_taps. fold nar in NS. rewrite <- NS. split; [split|reflexivity].
  - cbn [length map seq]. repeat (apply f_equal2; [f_equal; lia|]). reflexivity.
  - intros i I. apply narrow_far. cbn in I. lia.
Qed.
Lemma pad6 : (if nhev4 (s (-2)) (s (-1)) (s 0) (s 1) (bd - 8) <=? level
  then filter_narrow4_6 (s (-3)) (s (-2)) (s (-1)) (s 0) (s 1) (s 2) (bd - 8)
  else filter_narrow2_6 (s (-3)) (s (-2)) (s (-1)) (s 0) (s 1) (s 2) (bd - 8)) = s (-3) :: nar ++ [s 2].
Proof. unfold nar. destruct (nhev4 _ _ _ _ _ <=? _); reflexivity. Qed.
Lemma pad12 : (if nhev4 (s (-2)) (s (-1)) (s 0) (s 1) (bd - 8) <=? level
  then filter_narrow4_12 (s (-6)) (s (-5)) (s (-4)) (s (-3)) (s (-2)) (s (-1)) (s 0) (s 1) (s 2) (s 3) (s 4) (s 5) (bd - 8)
  else filter_narrow2_12 (s (-6)) (s (-5)) (s (-4)) (s (-3)) (s (-2)) (s (-1)) (s 0) (s 1) (s 2) (s 3) (s 4) (s 5) (bd - 8))
  = s (-6) :: (s (-5) :: (s (-4) :: (s (-3) :: nar ++ [s 2]) ++ [s 3]) ++ [s 4]) ++ [s 5].
Proof. unfold nar. destruct (nhev4 _ _ _ _ _ <=? _); reflexivity. Qed.
(** put the two neighbours around an agreeing list *)
Lemma pad f half0 off l a b : a = off - half0 -> b = off - half0 + 1 + zlen l ->
  agrees f s half0 (off + 1) l -> agrees f s half0 off (s a :: l ++ [s b]).
Proof. intros -> -> A. apply agrees_pad; assumption. Qed.
Lemma zlen_pad (x y : Z) l n : zlen l = n -> zlen (x :: l ++ [y]) = n + 2.
Proof. intros <-. rewrite zlen_cons, zlen_app, zlen_cons, zlen_nil. lia. Qed.

Lemma line_kernel :
  match deblock_inner size (fun k => s (k - half)) level bd with
  | Some (off, l) => agrees (Spec.line pl fs bd level s) s half off l /\ 0 <= off /\ off + zlen l <= size
  | None => forall i, Spec.line pl fs bd level s i = s i
  end.
Proof.
  assert (EXT : forall f g half0 off l, (forall i, f i = g i) -> agrees f s half0 off l -> agrees g s half0 off l).
  { intros f g h0 off l E [A1 A2]. split; [rewrite A1 at 1; apply map_ext, E|]. intros i I. rewrite <- E. apply A2, I. }
  assert (ZN : zlen nar = 4). { unfold zlen. destruct (nar_agrees 2 0 eq_refl) as [_ ->]. reflexivity. }
  unfold deblock_inner, half, size, kernel_of, Spec.line.
  destruct FS as [E|[E|[E E0]]]; rewrite ?E, ?E0.
  - change (4 =? 4) with true. cbn [orb]. cbv iota. change (4 / 2) with 2. change (4 =? 4) with true. cbv iota zeta.
    rewrite mask_spec4 by reflexivity. name_taps. taps_norm.
    destruct (mask4 _ _ _ _ _ <=? level) eqn:M; cbn [negb]; [|reflexivity]. fold nar.
    split; [|lia]. apply nar_agrees. reflexivity.
  - change (8 =? 4) with false. change (8 =? 8) with true. cbn [orb]. cbv iota.
    destruct (Z.eqb_spec pl 0) as [E0|N].
    + rewrite ?E0. change (8 / 2) with 4. change (8 =? 4) with false. change (8 =? 6) with false. change (8 =? 8) with true. cbv iota zeta.
      rewrite mask_spec8, flat8_spec by (cbn; lia). name_taps. taps_norm.
      destruct (mask8 _ _ _ _ _ _ _ _ _ <=? level) eqn:M; cbn [negb]; [|reflexivity].
      destruct (flat8 _ _ _ _ _ _ _ _ <=? _) eqn:F; cbn [negb].
      * pose proof (wide8_spec 0 0 s eq_refl) as W. name_taps. rewrite <- W.
        split; [|cbn; lia]. split; [reflexivity|]. intros i I. apply wide_far. cbn in I |- *. lia.
      * rewrite pad6. rewrite (zlen_pad _ _ _ 4 ZN). split; [|lia].
        apply pad; rewrite ?ZN; try lia. apply nar_agrees. reflexivity.
    + change (6 / 2) with 3. change (6 =? 4) with false. change (6 =? 6) with true. cbv iota zeta.
      assert (FL : Spec.filterLen pl 8 = 6). { unfold Spec.filterLen. rewrite (proj2 (Z.eqb_neq pl 0) N). reflexivity. }
      rewrite mask_spec6, flat6_spec by (first [exact FL|lia]). name_taps. taps_norm.
      destruct (mask6 _ _ _ _ _ _ _ <=? level) eqn:M; cbn [negb]; [|reflexivity].
      destruct (flat6 _ _ _ _ _ _ <=? _) eqn:F; cbn [negb].
      * pose proof (wide6_spec pl 0 s N) as W. name_taps. rewrite <- W.
        split; [|cbn; lia]. split; [reflexivity|]. intros i I. apply wide_far. rewrite (proj2 (Z.eqb_neq pl 0) N). cbn in I |- *. lia.
      * fold nar. rewrite ZN. split; [|lia]. apply nar_agrees. reflexivity.
  - change (16 =? 4) with false. change (16 =? 8) with false. change (0 =? 0) with true. cbn [orb]. cbv iota.
    change (14 / 2) with 7. change (14 =? 4) with false. change (14 =? 6) with false. change (14 =? 8) with false. change (14 =? 14) with true. cbv iota zeta.
    rewrite mask_spec8, flat8_spec, flat14_spec by (cbn; lia). name_taps. taps_norm.
    destruct (mask8 _ _ _ _ _ _ _ _ _ <=? level) eqn:M; cbn [negb]; [|reflexivity].
    destruct (flat8 _ _ _ _ _ _ _ _ <=? _) eqn:F; cbn [negb].
    + destruct (flat14_outer _ _ _ _ _ _ _ _ <=? _) eqn:F2; cbn [negb].
      * pose proof (wide14_spec 0 0 s) as W. name_taps. rewrite <- W.
        split; [|cbn; lia]. split; [reflexivity|]. intros i I. apply wide_far. cbn in I |- *. lia.
      * unfold filter_wide8_12. pose proof (wide8_spec 0 0 s eq_refl) as W. name_taps. rewrite <- W.
        split; [|cbn; lia]. split.
        -- cbn [map app length seq]. 
           repeat (apply f_equal2; [first [reflexivity|symmetry; apply wide_far; cbn; lia]|]). reflexivity.
        -- intros i I. apply wide_far. cbn in I |- *. lia.
    + rewrite pad12.
      pose proof (zlen_pad (s (-3)) (s 2) _ _ ZN) as Z1. pose proof (zlen_pad (s (-4)) (s 3) _ _ Z1) as Z2.
      pose proof (zlen_pad (s (-5)) (s 4) _ _ Z2) as Z3. pose proof (zlen_pad (s (-6)) (s 5) _ _ Z3) as Z4.
      rewrite Z4. split; [|lia].
      apply pad; rewrite ?Z3; try lia. apply pad; rewrite ?Z2; try lia. apply pad; rewrite ?Z1; try lia. apply pad; rewrite ?ZN; try lia.
      apply nar_agrees. reflexivity.
Qed.

(** range of the results *)
Hypothesis P : forall i, - half <= i < half -> 0 <= s i < 2 ^ bd.
Lemma line_range off l : deblock_inner size (fun k => s (k - half)) level bd = Some (off, l) ->
  Forall (fun x => 0 <= x < 2 ^ bd) l.
Proof.
  pose proof bd_pow as BP. pose proof Kpos as KP.
  assert (HS : size = 4 \/ size = 6 \/ size = 8 \/ size = 14).
  { unfold size, kernel_of. destruct FS as [E|[E|[E E0]]]; rewrite ?E, ?E0; cbn; [lia|destruct (pl =? 0); lia|lia]. }
  assert (N4 : forall p1 p0 q0 q1, Forall (fun x => 0 <= x < 2 ^ bd) (filter_narrow4_4 p1 p0 q0 q1 (bd - 8))).
  { intros. unfold filter_narrow4_4. rewrite !shiftl_K. rewrite BP.
    repeat apply Forall_cons; try apply Forall_nil; match goal with |- context [clamp ?x ?a ?b] => pose proof (clamp_range x a b ltac:(lia)); lia end. }
  assert (N2 : forall p1 p0 q0 q1, 0 <= p1 < 2 ^ bd -> 0 <= q1 < 2 ^ bd -> Forall (fun x => 0 <= x < 2 ^ bd) (filter_narrow2_4 p1 p0 q0 q1 (bd - 8))).
  { intros p1 p0 q0 q1 A1 A2. unfold filter_narrow2_4. rewrite !shiftl_K. rewrite BP in A1, A2 |- *.
    repeat apply Forall_cons; try apply Forall_nil; try assumption; match goal with |- context [clamp ?x ?a ?b] => pose proof (clamp_range x a b ltac:(lia)); lia end. }
  assert (R8 : forall x, 0 <= x -> x <= 8 * (2 ^ bd - 1) + 4 -> 0 <= Z.shiftr x 3 < 2 ^ bd).
  { intros x X1 X2. rewrite Z.shiftr_div_pow2 by lia. pose proof (avg_range 4 8 x (2 ^ bd - 1) X1 X2). change (2 ^ 3) with 8. lia. }
  assert (R16 : forall x, 0 <= x -> x <= 16 * (2 ^ bd - 1) + 8 -> 0 <= Z.shiftr x 4 < 2 ^ bd).
  { intros x X1 X2. rewrite Z.shiftr_div_pow2 by lia. pose proof (avg_range 8 16 x (2 ^ bd - 1) X1 X2). change (2 ^ 4) with 16. lia. }
  unfold deblock_inner, half in *.
  destruct HS as [E|[E|[E|E]]]; rewrite E in *; cbn [Z.eqb Pos.eqb]; cbv zeta; taps_norm.
  - change (4 / 2) with 2 in *. 
    pose proof (P (-2) ltac:(lia)). pose proof (P (-1) ltac:(lia)). pose proof (P 0 ltac:(lia)). pose proof (P 1 ltac:(lia)).
    destruct (mask4 _ _ _ _ _ <=? _); [|discriminate]. intros [= <- <-].
    destruct (nhev4 _ _ _ _ _ <=? _); auto.
  - change (6 / 2) with 3 in *.
    pose proof (P (-3) ltac:(lia)). pose proof (P (-2) ltac:(lia)). pose proof (P (-1) ltac:(lia)). pose proof (P 0 ltac:(lia)). pose proof (P 1 ltac:(lia)). pose proof (P 2 ltac:(lia)).
    destruct (mask6 _ _ _ _ _ _ _ <=? _); [|discriminate]. intros [= <- <-].
    destruct (flat6 _ _ _ _ _ _ <=? _); [|destruct (nhev4 _ _ _ _ _ <=? _); auto].
    unfold filter_wide6_4. repeat apply Forall_cons; try apply Forall_nil; apply R8; lia.
  - change (8 / 2) with 4 in *.
    pose proof (P (-4) ltac:(lia)). pose proof (P (-3) ltac:(lia)). pose proof (P (-2) ltac:(lia)). pose proof (P (-1) ltac:(lia)). pose proof (P 0 ltac:(lia)). pose proof (P 1 ltac:(lia)). pose proof (P 2 ltac:(lia)). pose proof (P 3 ltac:(lia)).
    destruct (mask8 _ _ _ _ _ _ _ _ _ <=? _); [|discriminate]. intros [= <- <-].
    destruct (flat8 _ _ _ _ _ _ _ _ <=? _).
    + unfold filter_wide8_6. repeat apply Forall_cons; try apply Forall_nil; apply R8; lia.
    + unfold filter_narrow4_6, filter_narrow2_6. destruct (nhev4 _ _ _ _ _ <=? _); constructor; auto; apply Forall_app; split; auto.
  - change (14 / 2) with 7 in *.
    pose proof (P (-7) ltac:(lia)). pose proof (P (-6) ltac:(lia)). pose proof (P (-5) ltac:(lia)). 
    pose proof (P (-4) ltac:(lia)). pose proof (P (-3) ltac:(lia)). pose proof (P (-2) ltac:(lia)). pose proof (P (-1) ltac:(lia)). pose proof (P 0 ltac:(lia)). pose proof (P 1 ltac:(lia)). pose proof (P 2 ltac:(lia)). pose proof (P 3 ltac:(lia)).
    pose proof (P 4 ltac:(lia)). pose proof (P 5 ltac:(lia)). pose proof (P 6 ltac:(lia)).
    destruct (mask8 _ _ _ _ _ _ _ _ _ <=? _); [|discriminate]. intros [= <- <-].
    destruct (flat8 _ _ _ _ _ _ _ _ <=? _).
    + destruct (flat14_outer _ _ _ _ _ _ _ _ <=? _).
      * unfold filter_wide14_12. repeat apply Forall_cons; try apply Forall_nil; apply R16; lia.
      * unfold filter_wide8_12, filter_wide8_6. cbn [app]. repeat apply Forall_cons; try apply Forall_nil; try assumption; apply R8; lia.
    + unfold filter_narrow4_12, filter_narrow2_12. 
      destruct (nhev4 _ _ _ _ _ <=? _); apply Forall_app; split; [auto|apply Forall_app; split; auto|auto|apply Forall_app; split; auto].
Qed.

(** the stored line *)
Lemma line_ok tbits i : bd <= tbits -> - half <= i < half ->
  deblock_line tbits size (fun k => s (k - half)) level bd (i + half) = Spec.line pl fs bd level s i /\
  0 <= Spec.line pl fs bd level s i < 2 ^ bd.
Proof.
  intros T I. pose proof line_kernel as LK. pose proof line_range as LR. unfold deblock_line.
  destruct (deblock_inner size _ level bd) as [[off l]|] eqn:E.
  - specialize (LR off l eq_refl). destruct LK as ([A1 A2] & O1 & O2).
    destruct ((off <=? i + half) && (i + half <? off + zlen l)) eqn:C.
    + apply andb_true_iff in C as [C1 C2]. apply Z.leb_le in C1. apply Z.ltb_lt in C2.
      assert (V : nth (Z.to_nat (i + half - off)) l 0 = Spec.line pl fs bd level s i).
      { rewrite A1, map_map. rewrite (nth_indep _ _ (Spec.line pl fs bd level s (Z.of_nat 0 + off - half))) by (rewrite map_length, seq_length; unfold zlen in *; lia).
        rewrite (map_nth (fun k => Spec.line pl fs bd level s (Z.of_nat k + off - half))). rewrite seq_nth by (unfold zlen in *; lia).
        f_equal. lia. }
      assert (R : 0 <= Spec.line pl fs bd level s i < 2 ^ bd).
      { rewrite <- V. rewrite Forall_forall in LR. apply LR, nth_In. unfold zlen in *; lia. }
      split; [|exact R]. rewrite V. apply Z.mod_small. split; [lia|].
      apply Z.lt_le_trans with (2 ^ bd); [lia|]. apply Z.pow_le_mono_r; lia.
    + apply andb_false_iff in C. rewrite Z.leb_gt, Z.ltb_ge in C. rewrite (A2 i) by lia.
      replace (i + half - half) with i by lia. split; [reflexivity|]. apply P. lia.
  - rewrite LK. replace (i + half - half) with i by lia. split; [reflexivity|]. apply P. lia.
Qed.
Lemma line_far i : i < - half \/ half <= i -> Spec.line pl fs bd level s i = s i.
Proof.
  intros I. pose proof line_kernel as LK.
  destruct (deblock_inner size _ level bd) as [[off l]|] eqn:E; [|apply LK].
  destruct LK as ([A1 A2] & O1 & O2). apply A2.
  assert (HS : 2 * half = size). { unfold half, size, kernel_of. destruct FS as [E1|[E1|[E1 E0]]]; rewrite ?E1, ?E0; cbn; try reflexivity. destruct (pl =? 0); reflexivity. }
  lia.
Qed.
End Kernel.
End Line.
