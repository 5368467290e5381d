(** Proofs about clustering. *)
From Coq Require Import Sorted.
From Verif Require Import Kmeans_model Kmeans_spec.
Open Scope Z_scope.
Open Scope list_scope.

(** ** Lists *)
Lemma total_app a b : total (a ++ b) = total a + total b.
Proof. unfold total. induction a as [|x a IH]; cbn [app fold_right]; lia. Qed.
Definition P (data : list Z) (n : nat) : Z := total (firstn n data).
Lemma P_step data n d : nth_error data n = Some d -> P data (S n) = P data n + d.
Proof.
  unfold P. revert n. induction data as [|x l IH]; intros [|n] H; cbn [nth_error] in H; try discriminate.
  - injection H as ->. cbn. lia.
  - specialize (IH n H). rewrite (firstn_cons (S n)), (firstn_cons n). unfold total in *. cbn [fold_right]. lia.
Qed.

(** a predicate which holds up to some value *)
Definition initial (p : Z -> bool) : Prop := forall a b, a <= b -> p b = true -> p a = true.
Lemma initial_le t : initial (fun d => d <=? t). Proof. intros a b H E. lia. Qed.
Lemma initial_lt t : initial (fun d => d <? t). Proof. intros a b H E. lia. Qed.
Definition cut (p : Z -> bool) (data : list Z) : nat := length (filter p data).
Lemma filter_none (p : Z -> bool) l : (forall x, In x l -> p x = false) -> filter p l = [].
Proof.
  induction l as [|x l IH]; intros H; cbn [filter]; [reflexivity|].
  rewrite (H x (or_introl eq_refl)). apply IH. intros y I. apply H. right. exact I.
Qed.
Lemma cut_le p data : (cut p data <= length data)%nat.
Proof. unfold cut. induction data as [|x l IH]; cbn [filter]; [auto|]. destruct (p x); cbn [length] in *; lia. Qed.
Lemma cut_first p data : StronglySorted Z.le data -> initial p -> firstn (cut p data) data = filter p data.
Proof.
  intros S I. unfold cut. induction S as [|x l S IH F]; [reflexivity|]. cbn [filter]. destruct (p x) eqn:E; cbn [length firstn].
  - now rewrite IH.
  - rewrite filter_none; [reflexivity|]. rewrite Forall_forall in F. intros y Hy.
    apply not_true_iff_false. intros C. rewrite (I x y (F y Hy) C) in E. discriminate.
Qed.
Lemma cut_nth p data : StronglySorted Z.le data -> initial p -> forall k d, nth_error data k = Some d ->
  p d = (k <? cut p data)%nat.
Proof.
  intros S I. unfold cut. induction S as [|x l S IH F]; intros k d E; [destruct k; discriminate|].
  cbn [filter]. destruct (p x) eqn:Ex; cbn [length].
  - destruct k as [|k]; cbn [nth_error] in E; [injection E as <-; rewrite Ex; reflexivity|]. rewrite (IH k d E).
    reflexivity.
  - rewrite Forall_forall in F.
    assert (N : forall y, In y (x :: l) -> p y = false).
    { intros y [<-|Hy]; [exact Ex|]. apply not_true_iff_false. intros C. rewrite (I x y (F y Hy) C) in Ex. discriminate. }
    rewrite (filter_none p l) by (intros y Hy; apply N; right; exact Hy). cbn [length].
    rewrite (N d) by (apply nth_error_In with k; exact E). symmetry. apply Nat.ltb_ge. lia.
Qed.

(** ** The scans *)
Section Data.
Variable data : list Z.
Hypothesis Hsort : StronglySorted Z.le data.

Lemma scan_rev_ok p sg c n : initial p -> (sg = 1 \/ sg = -1) ->
  (forall k, (k <= length data)%nat -> i64_ok (sg * P data k + c) = true) -> (n <= length data)%nat ->
  scan_rev data (fun d => negb (p d)) (fun s d => s - sg * d) n (sg * P data n + c)
  = Some (Nat.min n (cut p data), sg * P data (Nat.min n (cut p data)) + c).
Proof.
  intros I Sg B. induction n as [|n IH]; intros Hn; cbn [scan_rev]; [reflexivity|].
  destruct (nth_error data n) as [d|] eqn:E; [|apply nth_error_None in E; lia].
  rewrite (cut_nth p data Hsort I n d E). destruct (n <? cut p data)%nat eqn:Q; cbn [negb].
  - apply Nat.ltb_lt in Q. replace (Nat.min (S n) (cut p data)) with (S n) by lia. reflexivity.
  - apply Nat.ltb_ge in Q. rewrite (P_step data n d E).
    replace (sg * (P data n + d) + c - sg * d) with (sg * P data n + c) by lia.
    unfold chk64. rewrite B by lia. rewrite IH by lia.
    replace (Nat.min (S n) (cut p data)) with (Nat.min n (cut p data)) by lia. reflexivity.
Qed.
Lemma scan_list_ok p sg c : initial p -> (sg = 1 \/ sg = -1) ->
  (forall k, (k <= length data)%nat -> i64_ok (sg * P data k + c) = true) ->
  forall l n, skipn n data = l -> (n <= length data)%nat ->
  scan_list l p (fun s d => s + sg * d) n (sg * P data n + c)
  = Some (Nat.max n (cut p data), sg * P data (Nat.max n (cut p data)) + c).
Proof.
  intros I Sg B. induction l as [|d l IH]; intros n E Hn; cbn [scan_list].
  - assert (n = length data).
    { assert (L : length (skipn n data) = O) by (rewrite E; reflexivity). rewrite skipn_length in L. lia. }
    pose proof (cut_le p data). replace (Nat.max n (cut p data)) with n by lia. reflexivity.
  - assert (En : nth_error data n = Some d).
    { rewrite <- (firstn_skipn n data), E, nth_error_app2; rewrite firstn_length_le by exact Hn; [|lia].
      rewrite Nat.sub_diag. reflexivity. }
    assert (Es : skipn (S n) data = l).
    { change l with (skipn 1 (d :: l)). rewrite <- E, skipn_skipn. f_equal. lia. }
    assert (Ln : (n < length data)%nat) by (apply nth_error_Some; rewrite En; discriminate).
    rewrite (cut_nth p data Hsort I n d En). destruct (n <? cut p data)%nat eqn:Q.
    + apply Nat.ltb_lt in Q.
      replace (sg * P data n + c + sg * d) with (sg * P data (S n) + c) by (rewrite (P_step data n d En); lia).
      unfold chk64. rewrite B by lia. rewrite IH by (assumption || lia).
      replace (Nat.max (S n) (cut p data)) with (Nat.max n (cut p data)) by lia. reflexivity.
    + apply Nat.ltb_ge in Q. replace (Nat.max n (cut p data)) with n by lia. reflexivity.
Qed.

(** sums that occur are differences of partial sums *)
Hypothesis Hbound : forall a b, (a <= length data)%nat -> (b <= length data)%nat ->
  Z.abs (P data a - P data b) + Z.of_nat (length data) < 2 ^ 63.

Definition in_data (c : cluster) : Prop :=
  (c_low c <= length data)%nat /\ (c_high c <= length data)%nat /\
  c_sum c = P data (c_high c) - P data (c_low c).

Lemma scan_rev_ext test1 test2 op1 op2 n : (forall d, test1 d = test2 d) -> (forall s d, op1 s d = op2 s d) ->
  forall s, scan_rev data test1 op1 n s = scan_rev data test2 op2 n s.
Proof.
  intros H1 H2. induction n as [|n IH]; intros s; cbn [scan_rev]; [reflexivity|].
  destruct (nth_error data n); [|reflexivity]. rewrite H1, H2. destruct (test2 z); [|reflexivity].
  destruct (chk64 (op2 s z)); [apply IH|reflexivity].
Qed.
Lemma scan_list_ext l test1 test2 op1 op2 : (forall d, test1 d = test2 d) -> (forall s d, op1 s d = op2 s d) ->
  forall n s, scan_list l test1 op1 n s = scan_list l test2 op2 n s.
Proof.
  intros H1 H2. induction l as [|d l IH]; intros n s; cbn [scan_list]; [reflexivity|].
  rewrite H1, H2. destruct (test2 d); [|reflexivity]. destruct (chk64 (op2 s d)); [apply IH|reflexivity].
Qed.

Definition up_to (t : Z) : nat := cut (fun d => d <=? t) data.
Definition below (t : Z) : nat := cut (fun d => d <? t) data.
Lemma scan_ok t c1 c2 : in_data c1 -> in_data c2 ->
  scan data t c1 c2 =
  Some ({| c_mean := c_mean c1; c_low := c_low c1; c_high := up_to t; c_sum := P data (up_to t) - P data (c_low c1) |},
        {| c_mean := c_mean c2; c_low := below t; c_high := c_high c2; c_sum := P data (c_high c2) - P data (below t) |}).
Proof.
  intros (A1 & A2 & A3) (B1 & B2 & B3). unfold scan.
  assert (C1 : forall k, (k <= length data)%nat -> i64_ok (1 * P data k + - P data (c_low c1)) = true).
  { intros k Hk. unfold i64_ok. specialize (Hbound k (c_low c1) Hk A1). lia. }
  assert (C2 : forall k, (k <= length data)%nat -> i64_ok (-1 * P data k + P data (c_high c2)) = true).
  { intros k Hk. unfold i64_ok. specialize (Hbound (c_high c2) k B2 Hk). lia. }
  pose proof (cut_le (fun d => d <=? t) data) as L1. pose proof (cut_le (fun d => d <? t) data) as L2.
  fold (up_to t) in L1. fold (below t) in L2.
  rewrite (scan_rev_ext _ (fun d => negb (d <=? t)) _ (fun s d => s - 1 * d)) by (intros; lia).
  replace (c_sum c1) with (1 * P data (c_high c1) + - P data (c_low c1)) by lia.
  rewrite (scan_rev_ok (fun d => d <=? t) 1) by (try apply initial_le; try tauto; assumption). fold (up_to t). cbn [fst snd].
  unfold scan_fwd at 1. replace (Nat.min (c_high c1) (up_to t) <=? length data)%nat with true by (symmetry; apply Nat.leb_le; lia).
  rewrite (scan_list_ext _ _ (fun d => d <=? t) _ (fun s d => s + 1 * d)) by (intros; lia).
  rewrite (scan_list_ok (fun d => d <=? t) 1) by (try apply initial_le; try tauto; try reflexivity; try assumption; lia).
  fold (up_to t). replace (Nat.max (Nat.min (c_high c1) (up_to t)) (up_to t)) with (up_to t) by lia.
  unfold scan_fwd. replace (c_low c2 <=? length data)%nat with true by (symmetry; apply Nat.leb_le; lia).
  rewrite (scan_list_ext _ _ (fun d => d <? t) _ (fun s d => s + -1 * d)) by (intros; lia).
  replace (c_sum c2) with (-1 * P data (c_low c2) + P data (c_high c2)) by lia.
  rewrite (scan_list_ok (fun d => d <? t) (-1)) by (try apply initial_lt; try tauto; try reflexivity; try assumption; lia).
  fold (below t). cbn [fst snd].
  rewrite (scan_rev_ext _ (fun d => negb (d <? t)) _ (fun s d => s - -1 * d)) by (intros; lia).
  rewrite (scan_rev_ok (fun d => d <? t) (-1)) by (try apply initial_lt; try tauto; try assumption; lia).
  fold (below t). replace (Nat.min (Nat.max (c_low c2) (below t)) (below t)) with (below t) by lia. cbn [fst snd].
  replace (1 * P data (up_to t) + - P data (c_low c1)) with (P data (up_to t) - P data (c_low c1)) by lia.
  replace (-1 * P data (below t) + P data (c_high c2)) with (P data (c_high c2) - P data (below t)) by lia. reflexivity.
Qed.

(** ** Clusters as parts of the data *)
Definition lo_idx (lo : option Z) : nat := match lo with Some t => below t | None => O end.
Definition hi_idx (hi : option Z) : nat := match hi with Some t => up_to t | None => length data end.
Definition ordered (lo hi : option Z) : Prop := match lo, hi with Some a, Some b => a <= b | _, _ => True end.

Lemma P_cut p : initial p -> P data (cut p data) = total (filter p data).
Proof. intros I. unfold P. rewrite cut_first by assumption. reflexivity. Qed.
Lemma filter_split (l : list Z) lo hi : ordered lo hi ->
  let f := match hi with Some b => filter (fun d => d <=? b) l | None => l end in
  let g := match lo with Some a => filter (fun d => d <? a) l | None => [] end in
  total f - total g = total (filter (between lo hi) l) /\
  zlen f - zlen g = zlen (filter (between lo hi) l).
Proof.
  intros O. induction l as [|d l IH]; cbn zeta in *.
  - destruct lo, hi; split; reflexivity.
  - destruct IH as [I1 I2]. destruct lo as [a|], hi as [b|]; cbn [filter ordered andb] in *.
    + change (between (Some a) (Some b) d) with ((a <=? d) && (d <=? b)).
      destruct (a <=? d) eqn:Q1, (d <=? b) eqn:Q2, (d <? a) eqn:Q3; try lia; cbn [andb];
        rewrite ?zlen_cons; unfold total in *; cbn [fold_right]; lia.
    + change (between (Some a) None d) with ((a <=? d) && true).
      destruct (a <=? d) eqn:Q1, (d <? a) eqn:Q3; try lia; cbn [andb]; rewrite ?zlen_cons; unfold total in *; cbn [fold_right]; lia.
    + change (between None (Some b) d) with (d <=? b).
      destruct (d <=? b) eqn:Q2; rewrite ?zlen_cons; unfold total in *; cbn [fold_right] in *; change (@zlen Z []) with 0 in *; lia.
    + change (between None None d) with true. cbv iota. rewrite ?zlen_cons; unfold total in *; cbn [fold_right] in *; change (@zlen Z []) with 0 in *; lia.
Qed.
Lemma part lo hi : ordered lo hi ->
  P data (hi_idx hi) - P data (lo_idx lo) = total (filter (between lo hi) data) /\
  Z.of_nat (hi_idx hi) - Z.of_nat (lo_idx lo) = zlen (filter (between lo hi) data).
Proof.
  intros O. destruct (filter_split data lo hi O) as [F1 F2]. cbn zeta in *. rewrite <- F1, <- F2. clear F1 F2.
  split.
  - f_equal.
    + destruct hi as [b|]; cbn [hi_idx]; [apply P_cut, initial_le|]. unfold P. rewrite firstn_all. reflexivity.
    + destruct lo as [a|]; cbn [lo_idx]; [apply P_cut, initial_lt|reflexivity].
  - unfold zlen. f_equal; [|f_equal]; [destruct hi|destruct lo]; reflexivity.
Qed.
Lemma lo_idx_le lo : (lo_idx lo <= length data)%nat.
Proof. destruct lo; cbn [lo_idx]; [apply cut_le|lia]. Qed.
Lemma hi_idx_le hi : (hi_idx hi <= length data)%nat.
Proof. destruct hi; cbn [hi_idx]; [apply cut_le|lia]. Qed.

(** ** Means *)
Lemma total_ge l a : (forall x, In x l -> a <= x) -> a * zlen l <= total l.
Proof.
  intros H. induction l as [|x l IH]; [unfold zlen; cbn; lia|]. rewrite zlen_cons. unfold total in *. cbn [fold_right].
  specialize (H x (or_introl eq_refl)) as Hx. specialize (IH (fun y I => H y (or_intror I))). lia.
Qed.
Lemma total_le l a : (forall x, In x l -> x <= a) -> total l <= a * zlen l.
Proof.
  intros H. induction l as [|x l IH]; [unfold zlen; cbn; lia|]. rewrite zlen_cons. unfold total in *. cbn [fold_right].
  specialize (H x (or_introl eq_refl)) as Hx. specialize (IH (fun y I => H y (or_intror I))). lia.
Qed.
Definition count (t : Z) (l : list Z) : Z := zlen (filter (Z.eqb t) l).
(** values other than [a] are at least one less *)
Lemma total_le_count l a : (forall x, In x l -> x <= a) -> total l <= a * zlen l - (zlen l - count a l).
Proof.
  intros H. unfold count. induction l as [|x l IH]; [unfold zlen; cbn; lia|]. rewrite zlen_cons. unfold total in *. cbn [fold_right filter].
  specialize (H x (or_introl eq_refl)) as Hx. specialize (IH (fun y I => H y (or_intror I))).
  destruct (a =? x) eqn:E; rewrite ?zlen_cons; lia.
Qed.
Lemma zlen_pos {A} (l : list A) : l <> [] -> 1 <= zlen l.
Proof. destruct l; [congruence|]. rewrite zlen_cons. unfold zlen. lia. Qed.

Lemma quot_ge s n a : 1 <= n -> a * n <= s -> a <= Z.quot s n.
Proof.
  intros Hn H. apply Z.le_trans with (Z.quot (a * n) n); [rewrite Z.quot_mul by lia; lia|].
  apply Z.quot_le_mono; lia.
Qed.
Lemma quot_le s n a : 1 <= n -> s <= a * n -> Z.quot s n <= a.
Proof.
  intros Hn H. apply Z.le_trans with (Z.quot (a * n) n); [apply Z.quot_le_mono; lia|rewrite Z.quot_mul by lia; lia].
Qed.
Lemma mean_ge l a : l <> [] -> (forall x, In x l -> a <= x) -> a <= mean_of l.
Proof.
  intros N H. apply zlen_pos in N. pose proof (total_ge l a H). unfold mean_of. apply quot_ge; [lia|]. dlia.
Qed.
Lemma mean_ge2 l a : 2 <= zlen l -> a < 0 -> (forall x, In x l -> a <= x) -> a + 1 <= mean_of l.
Proof.
  intros N Ha H. pose proof (total_ge l a H) as T. unfold mean_of. set (s := total l + zlen l / 2).
  assert (Hs : a * zlen l < s) by (unfold s; dlia). clearbody s.
  (* a quotient strictly above a negative integer truncates upwards *)
  destruct (Z.lt_ge_cases s 0) as [Q|Q].
  - rewrite <- (Z.opp_involutive s), Z.quot_opp_l by lia.
    assert (E : Z.quot (- s) (zlen l) = (- s) / zlen l) by (apply Z.quot_div_nonneg; lia).
    rewrite E. assert ((- s) / zlen l < - a) by (apply Z.div_lt_upper_bound; lia). lia.
  - apply quot_ge; [lia|]. nia.
Qed.
Lemma mean_le_count l a : l <> [] -> (forall x, In x l -> x <= a) -> count a l <= 1 -> mean_of l <= a.
Proof.
  intros N H C. apply zlen_pos in N. pose proof (total_le_count l a H). unfold mean_of. apply quot_le; [lia|]. dlia.
Qed.
Lemma mean_le_nonneg l a : l <> [] -> (forall x, In x l -> x <= a) -> 0 <= a -> mean_of l <= a.
Proof.
  intros N H C. apply zlen_pos in N. pose proof (total_le l a H) as T. unfold mean_of. set (s := total l + zlen l / 2).
  assert (Hs : s < (a + 1) * zlen l) by (unfold s; dlia). clearbody s.
  destruct (Z.lt_ge_cases s 0) as [Q|Q]; [apply quot_le; nia|].
  rewrite Z.quot_div_nonneg by lia. assert (s / zlen l < a + 1) by (apply Z.div_lt_upper_bound; lia). lia.
Qed.
Lemma mean_le_neg l a : l <> [] -> (forall x, In x l -> x <= a) -> mean_of l <= a + 1.
Proof.
  intros N H. apply zlen_pos in N. pose proof (total_le l a H). unfold mean_of. apply quot_le; [lia|]. dlia.
Qed.

(** ** Order and range of the centres *)
Definition lo_le (lo : option Z) (m : Z) : Prop := match lo with Some a => a <= m | None => True end.
Lemma in_between lo hi x : In x (filter (between lo hi) data) <->
  In x data /\ lo_le lo x /\ match hi with Some b => x <= b | None => True end.
Proof.
  rewrite filter_In. unfold between, lo_le. destruct lo, hi; rewrite ?andb_true_r, ?andb_true_iff, ?Z.leb_le; cbn [andb]; intuition.
Qed.
Lemma count_filter lo hi t (l : list Z) : between lo hi t = true -> count t (filter (between lo hi) l) = count t l.
Proof.
  intros B. unfold count. f_equal. induction l as [|x l IH]; [reflexivity|]. cbn [filter].
  destruct (between lo hi x) eqn:E; cbn [filter].
  - destruct (t =? x); [f_equal|]; apply IH.
  - destruct (t =? x) eqn:Q; [apply Z.eqb_eq in Q; subst x; congruence|]. apply IH.
Qed.
Lemma count_between lo hi t : between lo hi t = true -> count t (filter (between lo hi) data) = count t data.
Proof. apply count_filter. Qed.
Lemma midpoint_between a b : a <= b -> a <= midpoint a b <= b.
Proof. intros H. unfold midpoint. dlia. Qed.
Lemma move_empty lo hi m : filter (between lo hi) data = [] -> move data lo hi m = m.
Proof. intros H. unfold move. rewrite H. reflexivity. Qed.
Lemma move_mean lo hi m : filter (between lo hi) data <> [] -> move data lo hi m = mean_of (filter (between lo hi) data).
Proof. intros H. unfold move. destruct (filter (between lo hi) data); [congruence|reflexivity]. Qed.
Lemma move_order lo hi m1 m2 : lo_le lo m1 -> m1 <= m2 -> (match hi with Some b => m2 <= b | None => True end) ->
  move data lo (Some (midpoint m1 m2)) m1 <= move data (Some (midpoint m1 m2)) hi m2.
Proof.
  intros L M Hh. pose proof (midpoint_between m1 m2 M) as T. set (t := midpoint m1 m2) in *. clearbody t.
  assert (B1 : between lo (Some t) t = true).
  { unfold between. rewrite Z.leb_refl, andb_true_r. destruct lo; cbn [lo_le] in L; lia. }
  assert (B2 : between (Some t) hi t = true) by (unfold between; rewrite Z.leb_refl; destruct hi; cbn [andb]; lia).
  assert (F1 : forall x, In x (filter (between lo (Some t)) data) -> x <= t) by (intros x I; apply in_between in I; tauto).
  assert (F2 : forall x, In x (filter (between (Some t) hi) data) -> t <= x) by (intros x I; apply in_between in I; cbn [lo_le] in I; tauto).
  pose proof (count_between _ _ _ B1) as C1. pose proof (count_between _ _ _ B2) as C2.
  pose proof (move_empty lo (Some t) m1) as V1. pose proof (move_mean lo (Some t) m1) as W1.
  pose proof (move_empty (Some t) hi m2) as V2. pose proof (move_mean (Some t) hi m2) as W2.
  set (f1 := filter (between lo (Some t)) data) in *. set (f2 := filter (between (Some t) hi) data) in *.
  assert (N1 : f1 = [] \/ f1 <> []) by (destruct f1; [left; reflexivity|right; congruence]).
  assert (N2 : f2 = [] \/ f2 <> []) by (destruct f2; [left; reflexivity|right; congruence]).
  destruct N1 as [N1|N1], N2 as [N2|N2].
  - rewrite (V1 N1), (V2 N2). exact M.
  - rewrite (V1 N1), (W2 N2). pose proof (mean_ge f2 t N2 F2). lia.
  - rewrite (W1 N1), (V2 N2).
    assert (count t f1 <= 1). { rewrite C1, <- C2, N2. unfold count, zlen. cbn. lia. }
    pose proof (mean_le_count f1 t N1 F1 H). lia.
  - rewrite (W1 N1), (W2 N2).
    pose proof (mean_ge f2 t N2 F2).
    destruct (Z.le_gt_cases (count t data) 1) as [Q|Q].
    + assert (Q1 : count t f1 <= 1) by lia. pose proof (mean_le_count f1 t N1 F1 Q1). lia.
    + destruct (Z.le_gt_cases 0 t) as [Q'|Q'].
      * pose proof (mean_le_nonneg f1 t N1 F1 Q'). lia.
      * pose proof (mean_le_neg f1 t N1 F1).
        assert (2 <= zlen f2).
        { assert (count t f2 <= zlen f2); [|lia]. unfold count, zlen. clear.
          induction f2 as [|x l IH]; cbn [filter]; [lia|]. destruct (t =? x); cbn [length]; lia. }
        assert (G2 : 2 <= zlen f2) by lia. pose proof (mean_ge2 f2 t G2 Q' F2). lia.
Qed.

(** upper end of the range the centres stay in *)
Definition cap (b : Z) : Z := if b <? 0 then b + 1 else b.
Lemma move_range a b lo hi m : (forall x, In x data -> a <= x <= b) -> a <= m <= cap b -> a <= move data lo hi m <= cap b.
Proof.
  intros H Hm. unfold move. set (f := filter (between lo hi) data).
  assert (F : forall x, In x f -> a <= x <= b) by (intros x I; apply H; apply in_between in I; tauto).
  destruct f as [|y f'] eqn:E; [exact Hm|]. rewrite <- E in *. assert (N : f <> []) by (rewrite E; discriminate).
  pose proof (mean_ge f a N (fun x I => proj1 (F x I))). unfold cap in *.
  destruct (b <? 0) eqn:Q.
  - pose proof (mean_le_neg f b N (fun x I => proj2 (F x I))). lia.
  - pose proof (mean_le_nonneg f b N (fun x I => proj2 (F x I)) ltac:(lia)). lia.
Qed.

Inductive chain : option Z -> list Z -> Prop :=
| ch_nil lo : chain lo []
| ch_cons lo m l : lo_le lo m -> chain (Some m) l -> chain lo (m :: l).
Lemma chain_weaken lo m l : lo_le lo m -> chain (Some m) l -> chain lo l.
Proof.
  intros L C. inversion C as [|? m' l' H1 H2]; subst; constructor; [|assumption].
  destruct lo; cbn [lo_le] in *; [lia|exact I].
Qed.
Lemma round_chain ms : forall lo, chain lo ms -> forall lo', (forall m rest, ms = m :: rest -> lo_le lo' m) ->
  (match ms with [] => True | m :: rest => forall q, q <= move data lo' (match rest with [] => None | m2 :: _ => Some (midpoint m m2) end) m -> chain (Some q) (round_from data lo' ms) end).
Proof.
  induction ms as [|m rest IH]; intros lo C lo' L; [exact I|]. intros q Hq. cbn [round_from].
  constructor; [exact Hq|]. inversion C as [|? ? ? _ C2]; subst.
  destruct rest as [|m2 rest]; [constructor|].
  assert (M : m <= m2) by (inversion C2; assumption).
  apply (IH (Some m) C2 (Some (midpoint m m2))).
  - intros m' r' E. injection E as <- <-. cbn [lo_le]. apply midpoint_between, M.
  - apply move_order; [apply (L m (m2 :: rest)); reflexivity|exact M|].
    destruct rest as [|m3 rest]; [exact I|]. apply midpoint_between. inversion C2 as [|? ? ? _ C3]; subst. inversion C3; assumption.
Qed.
Lemma round_sorted ms : chain None ms -> chain None (round data ms).
Proof.
  intros C. destruct ms as [|m rest]; [exact C|].
  pose proof (round_chain (m :: rest) None C None (fun _ _ _ => I) _ (Z.le_refl _)) as R. cbn beta iota in R.
  eapply chain_weaken; [|exact R]. exact I.
Qed.
Lemma round_from_length ms : forall lo, length (round_from data lo ms) = length ms.
Proof. induction ms as [|m ms IH]; intros lo; cbn [round_from length]; [reflexivity|]. now rewrite IH. Qed.
Lemma round_range a b ms : (forall x, In x data -> a <= x <= b) -> forall lo,
  (forall m, In m ms -> a <= m <= cap b) -> forall m, In m (round_from data lo ms) -> a <= m <= cap b.
Proof.
  intros H. induction ms as [|m0 ms IH]; intros lo Hm m I; cbn [round_from In] in I; [contradiction|].
  destruct I as [<-|I]; [apply move_range; [exact H|apply Hm; left; reflexivity]|].
  eapply IH; [|exact I]. intros x Hx. apply Hm. right. exact Hx.
Qed.

(** ** One round of the program *)
Variables tmin tmax a b : Z.
Hypothesis Hrange : forall x, In x data -> a <= x <= b.
Hypothesis Ht : tmin <= a /\ b <= tmax /\ 0 <= tmax.
Lemma conv_ok x : a <= x <= cap b -> conv tmin tmax x = Some x.
Proof. intros H. unfold conv, cap in *. destruct (b <? 0) eqn:Q; replace ((tmin <=? x) && (x <=? tmax)) with true by lia; reflexivity. Qed.

(** clusters between two given limits *)
Fixpoint laid (lo : option Z) (cs : list cluster) : Prop :=
  match cs with
  | [] => True
  | c :: rest =>
      let hi := match rest with [] => None | c2 :: _ => Some (midpoint (c_mean c) (c_mean c2)) end in
      c_low c = lo_idx lo /\ c_high c = hi_idx hi /\ in_data c /\ laid hi rest
  end.
Lemma scan_pairs_ok rest : forall c lo,
  in_data c -> Forall in_data rest -> c_low c = lo_idx lo -> c_high (last rest c) = length data ->
  chain None (map c_mean (c :: rest)) -> (forall m, In m (map c_mean (c :: rest)) -> a <= m <= cap b) ->
  exists l, scan_pairs tmin tmax data c rest = Some l /\ laid lo l /\ map c_mean l = map c_mean (c :: rest).
Proof.
  induction rest as [|c2 rest IH]; intros c lo Dc Dr El Eh Ch R; cbn [scan_pairs].
  - exists [c]. cbn [last] in Eh. split; [reflexivity|]. split; [|reflexivity]. cbn [laid hi_idx]. tauto.
  - inversion Dr as [|? ? D2 Dr']; subst.
    assert (M : c_mean c <= c_mean c2).
    { cbn [map] in Ch. inversion Ch as [|? ? ? _ Ch2]; subst. inversion Ch2; assumption. }
    assert (Et : Z.shiftr (c_mean c2 + c_mean c + 1) 1 = midpoint (c_mean c) (c_mean c2)).
    { rewrite Z.shiftr_div_pow2 by lia. unfold midpoint. f_equal. lia. }
    rewrite Et. pose proof (midpoint_between _ _ M) as T.
    pose proof (R (c_mean c) ltac:(cbn; tauto)) as R1. pose proof (R (c_mean c2) ltac:(cbn; tauto)) as R2.
    rewrite conv_ok by lia. rewrite scan_ok by assumption. cbn [fst snd].
    set (t := midpoint (c_mean c) (c_mean c2)) in *.
    set (c2' := {| c_mean := c_mean c2; c_low := below t; c_high := c_high c2; c_sum := P data (c_high c2) - P data (below t) |}).
    assert (D2' : in_data c2').
    { destruct D2 as (_ & X & _). split; [apply cut_le|split; [exact X|reflexivity]]. }
    destruct (IH c2' (Some t) D2' Dr' eq_refl) as [l [E [La Em]]].
    + cbn [last] in Eh. destruct rest as [|c3 rest]; [exact Eh|]. cbn [last] in *.
      clear - Eh. revert Eh. generalize c3. induction rest as [|x r IH]; intros c0 Eh; [exact Eh|]. apply IH, Eh.
    + cbn [map] in Ch |- *. inversion Ch as [|? ? ? _ Ch2]; subst. eapply chain_weaken; [|exact Ch2]. exact I.
    + intros m Im. apply R. cbn [map] in Im |- *. right. exact Im.
    + rewrite E. eexists. split; [reflexivity|]. split; [|cbn [map c_mean]; rewrite Em; reflexivity].
      destruct l as [|c2'' l]; [discriminate|].
      assert (Ec : c_mean c2'' = c_mean c2) by (cbn [map] in Em; injection Em as H _; exact H).
      assert (Ehi : Some (midpoint (c_mean c) (c_mean c2'')) = Some t) by (rewrite Ec; reflexivity).
      change (c_low c = lo_idx lo /\ up_to t = hi_idx (Some (midpoint (c_mean c) (c_mean c2''))) /\
              in_data {| c_mean := c_mean c; c_low := c_low c; c_high := up_to t; c_sum := P data (up_to t) - P data (c_low c) |} /\
              laid (Some (midpoint (c_mean c) (c_mean c2''))) (c2'' :: l)).
      rewrite Ehi. refine (conj El (conj eq_refl (conj _ La))).
      split; [exact (proj1 Dc)|]. split; [apply cut_le|reflexivity].
Qed.

Lemma means_ok l : forall lo, laid lo l -> chain None (map c_mean l) ->
  (forall c rest, l = c :: rest -> lo_le lo (c_mean c)) ->
  (forall m, In m (map c_mean l) -> a <= m <= cap b) ->
  exists l' ch, new_means tmin tmax l = Some (l', ch) /\
    map c_mean l' = round_from data lo (map c_mean l) /\
    (ch = false -> map c_mean l' = map c_mean l) /\
    map (fun c => (c_low c, c_high c, c_sum c)) l' = map (fun c => (c_low c, c_high c, c_sum c)) l.
Proof.
  induction l as [|c l IH]; intros lo La Ch L R; cbn [new_means].
  - exists [], false. repeat split; reflexivity.
  - cbn [laid] in La. set (hi := match l with [] => None | c2 :: _ => Some (midpoint (c_mean c) (c_mean c2)) end) in La.
    destruct La as (E1 & E2 & (D1 & D2 & D3) & La).
    specialize (L c l eq_refl).
    assert (O : ordered lo hi).
    { unfold hi. destruct lo as [x|], l as [|c2 l]; cbn [ordered]; try exact I. cbn [lo_le] in L.
      cbn [map] in Ch. inversion Ch as [|? ? ? _ Ch2]; subst. inversion Ch2 as [|? ? ? M _]; subst. cbn [lo_le] in M.
      pose proof (midpoint_between _ _ M). lia. }
    destruct (part lo hi O) as [P1 P2]. rewrite <- E1, <- E2 in P1, P2.
    pose proof (R (c_mean c) (or_introl eq_refl)) as Rc.
    assert (Hm : new_mean tmin tmax c = Some (move data lo hi (c_mean c))).
    { pose proof (move_range a b lo hi (c_mean c) Hrange Rc) as MR.
      unfold new_mean. unfold move in *. set (f := filter (between lo hi) data) in *.
      assert (Zf : 0 <= zlen f) by (unfold zlen; lia).
      replace (c_high c <? c_low c)%nat with false by (symmetry; apply Nat.ltb_ge; lia).
      replace (Z.of_nat (c_high c - c_low c)) with (zlen f) by lia.
      destruct f as [|y f'] eqn:Ef; [reflexivity|]. rewrite <- Ef in *.
      assert (Zp : 1 <= zlen f) by (rewrite Ef, zlen_cons; unfold zlen; lia).
      replace (zlen f =? 0) with false by lia.
      rewrite Z.shiftr_div_pow2 by lia. change (2 ^ 1) with 2. rewrite D3, P1.
      assert (Ok : i64_ok (total f + zlen f / 2) = true).
      { specialize (Hbound (c_high c) (c_low c) D2 D1). rewrite P1 in Hbound. unfold i64_ok. dlia. }
      unfold chk64. rewrite Ok. unfold mean_of in MR. rewrite conv_ok by exact MR. reflexivity. }
    rewrite Hm. cbn [map] in Ch. inversion Ch as [|? ? ? _ Ch2]; subst.
    destruct (IH hi La) as (l' & ch & E & Em & Ec & Es).
    + eapply chain_weaken; [|exact Ch2]. exact I.
    + intros c2 r El. unfold hi. rewrite El in *. cbn [lo_le]. inversion Ch2 as [|? ? ? M _]; subst. cbn [lo_le] in M.
      apply midpoint_between, M.
    + intros m Im. apply R. right. exact Im.
    + rewrite E. eexists. eexists. split; [reflexivity|]. cbn [fst snd map c_mean c_low c_high c_sum].
      assert (Eh : match map c_mean l with [] => None | m2 :: _ => Some (midpoint (c_mean c) m2) end = hi) by (unfold hi; destruct l; reflexivity).
      split; [cbn [round_from]; rewrite Eh, Em; reflexivity|]. split; [|rewrite Es; reflexivity].
      intros C. apply orb_false_iff in C. destruct C as [C1 C2]. rewrite (Ec C2). f_equal. lia.
Qed.
Lemma iter_fix {A} (f : A -> A) x n : f x = x -> Nat.iter n f x = x.
Proof. intros H. induction n as [|n IH]; [reflexivity|]. change (f (Nat.iter n f x) = x). now rewrite IH. Qed.
Lemma iter_shift {A} (f : A -> A) x n : Nat.iter n f (f x) = Nat.iter (S n) f x.
Proof.
  induction n as [|n IH]; [reflexivity|].
  change (f (Nat.iter n f (f x)) = f (Nat.iter (S n) f x)). now rewrite IH.
Qed.

Lemma laid_in lo l : laid lo l -> Forall in_data l.
Proof.
  revert lo. induction l as [|c l IH]; intros lo H; constructor; cbn [laid] in H; [tauto|]. eapply IH. apply H.
Qed.
Lemma laid_last l : forall lo c, laid lo l -> l <> [] -> c_high (last l c) = length data.
Proof.
  induction l as [|x l IH]; intros lo c La N; [congruence|]. destruct l as [|y l].
  - cbn [laid last] in *. apply La.
  - cbn [laid] in La. destruct La as (_ & _ & _ & La). change (last (x :: y :: l) c) with (last (y :: l) c).
    eapply IH; [exact La|discriminate].
Qed.

Lemma same_shape (l l' : list cluster) :
  map (fun c => (c_low c, c_high c, c_sum c)) l' = map (fun c => (c_low c, c_high c, c_sum c)) l ->
  Forall in_data l -> Forall in_data l' /\ (forall c0 c, l <> [] -> c_high (last l' c) = c_high (last l c0)) /\
  (forall c rest, l = c :: rest -> exists c' rest', l' = c' :: rest' /\ c_low c' = c_low c).
Proof.
  revert l'. induction l as [|c l IH]; intros l' E F.
  - destruct l'; [|discriminate]. split; [constructor|]. split; [congruence|]. discriminate.
  - destruct l' as [|c' l']; [discriminate|]. cbn [map] in E. injection E as E1 E2 E3 E4.
    inversion F as [|? ? Fc Fl]; subst. destruct (IH l' E4 Fl) as (G1 & G2 & _). split; [|split].
    + constructor; [|exact G1]. unfold in_data in *. rewrite E1, E2, E3. exact Fc.
    + intros c0 c1 _. destruct l as [|d l], l' as [|d' l']; try discriminate; [exact E2|].
      change (last (c' :: d' :: l') c1) with (last (d' :: l') c1). change (last (c :: d :: l) c0) with (last (d :: l) c0).
      apply G2. discriminate.
    + intros x r X. injection X as <- <-. eauto.
Qed.

Lemma iterate_ok n : forall l, Forall in_data l -> l <> [] -> (forall c rest, l = c :: rest -> c_low c = O) ->
  (forall c, c_high (last l c) = length data) -> chain None (map c_mean l) ->
  (forall m, In m (map c_mean l) -> a <= m <= cap b) ->
  exists l', iterate tmin tmax data n l = Some l' /\ map c_mean l' = Nat.iter n (round data) (map c_mean l).
Proof.
  induction n as [|n IH]; intros l D N L0 Lh Ch R; cbn [iterate].
  - exists l. split; reflexivity.
  - destruct l as [|c rest]; [congruence|].
    inversion D as [|? ? Dc Dr]; subst.
    destruct (scan_pairs_ok rest c None Dc Dr) as [l1 [E1 [La Em]]].
    + exact (L0 c rest eq_refl).
    + specialize (Lh c). destruct rest as [|c2 rest]; [exact Lh|]. exact Lh.
    + exact Ch.
    + exact R.
    + rewrite E1. destruct (means_ok l1 None La) as (l2 & ch & E2 & Em2 & Ec & Es).
      * rewrite Em. exact Ch.
      * intros. exact I.
      * rewrite Em. exact R.
      * rewrite E2. cbn [fst snd].
        assert (Nl1 : l1 <> []) by (destruct l1; [discriminate|congruence]).
        rewrite Em in Em2. fold (round data (map c_mean (c :: rest))) in Em2.
        destruct (same_shape l1 l2 Es (laid_in _ _ La)) as (F2 & H2 & Hd).
        destruct ch.
        -- destruct (IH l2 F2) as [l' [E' Em']].
           ++ destruct l1 as [|x r]; [congruence|]. destruct (Hd x r eq_refl) as (c' & r' & -> & _). discriminate.
           ++ intros c' r' El2. destruct l1 as [|x r]; [congruence|]. destruct (Hd x r eq_refl) as (c'' & r'' & El & Elow).
              rewrite El2 in El. injection El as <- <-. rewrite Elow. cbn [laid lo_idx] in La. apply La.
           ++ intros c0. rewrite (H2 c0 c0 Nl1). eapply laid_last; [exact La|exact Nl1].
           ++ rewrite Em2. apply round_sorted, Ch.
           ++ rewrite Em2. apply round_range; [exact Hrange|exact R].
           ++ exists l'. split; [exact E'|]. rewrite Em', Em2. apply iter_shift.
        -- exists l2. split; [reflexivity|]. specialize (Ec eq_refl). rewrite Em in Ec.
           rewrite Ec in *. symmetry. apply iter_fix. congruence.
Qed.
End Data.

(** ** The whole function *)
Lemma P_bound data a b : Z.abs (P data a - P data b) <= total (map Z.abs data).
Proof.
  unfold P. revert a b. induction data as [|x l IH]; intros a b.
  - rewrite !firstn_nil. cbn. lia.
  - assert (T : 0 <= total (map Z.abs l)).
    { clear. unfold total. induction l as [|y l IH]; cbn [map fold_right]; lia. }
    destruct a as [|a], b as [|b]; cbn [firstn map]; unfold total in *; cbn [fold_right].
    + lia.
    + specialize (IH O b). cbn [firstn fold_right] in IH. lia.
    + specialize (IH a O). cbn [firstn fold_right] in IH. lia.
    + specialize (IH a b). lia.
Qed.
Lemma sorted_nth data : StronglySorted Z.le data -> forall i j x y, (i <= j)%nat ->
  nth_error data i = Some x -> nth_error data j = Some y -> x <= y.
Proof.
  induction 1 as [|z l S IH F]; intros i j x y Hij Ei Ej; [destruct i; discriminate|].
  destruct i as [|i], j as [|j]; cbn [nth_error] in *; try lia.
  - injection Ei as <-. injection Ej as <-. lia.
  - injection Ei as <-. rewrite Forall_forall in F. apply F. eapply nth_error_In, Ej.
  - eapply IH; [|exact Ei|exact Ej]. lia.
Qed.
Lemma all_some_map {A B} (f : A -> option B) (g : A -> B) l : (forall x, In x l -> f x = Some (g x)) -> all_some (map f l) = Some (map g l).
Proof.
  intros H. induction l as [|x l IH]; cbn [map all_some]; [reflexivity|].
  rewrite (H x (or_introl eq_refl)), IH by (intros y I; apply H; right; exact I). reflexivity.
Qed.
Lemma chain_map f n : (forall i j, (i <= j)%nat -> (j < n)%nat -> f i <= f j) -> forall s m, (s + m = n)%nat ->
  forall q, (forall i, (i < n)%nat -> (s <= i)%nat -> lo_le q (f i)) -> chain q (map f (seq s m)).
Proof.
  intros H s m. revert s. induction m as [|m IH]; intros s E q L; cbn [seq map]; constructor.
  - apply L; lia.
  - apply IH; [lia|]. intros i Hi Hs. cbn [lo_le]. apply H; lia.
Qed.

Lemma kmeans_ok tmin tmax a b k data :
  StronglySorted Z.le data -> data <> [] -> (2 <= k)%nat ->
  (forall x, In x data -> a <= x <= b) -> tmin <= a /\ b <= tmax /\ 0 <= tmax ->
  total (map Z.abs data) + zlen data < 2 ^ 63 ->
  exists ms, kmeans tmin tmax k data = Some ms /\
    ms = Nat.iter (Z.to_nat (2 * (Z.log2 (zlen data) + 1))) (round data) (start k data) /\
    length ms = k /\ chain None ms /\ forall m, In m ms -> a <= m <= cap b.
Proof.
  intros Hs Hn Hk Hr Ht Hb. set (len := length data).
  assert (Hlen : (1 <= len)%nat) by (unfold len; destruct data; [congruence|cbn; lia]).
  assert (Hbd : forall x y, (x <= length data)%nat -> (y <= length data)%nat ->
     Z.abs (P data x - P data y) + Z.of_nat (length data) < 2 ^ 63).
  { intros x y _ _. pose proof (P_bound data x y). unfold zlen in Hb. lia. }
  set (lowf := fun i => (i * (len - 1) / (k - 1))%nat).
  assert (Hlow : forall i, (i < k)%nat -> (lowf i <= len - 1)%nat).
  { intros i Hi. unfold lowf. apply Nat.div_le_upper_bound; nia. }
  assert (Hlast : lowf (k - 1)%nat = (len - 1)%nat).
  { unfold lowf. rewrite Nat.mul_comm. apply Nat.div_mul. lia. }
  assert (Hnth : forall i, (i < k)%nat -> nth_error data (lowf i) = Some (nth (lowf i) data 0)).
  { intros i Hi. apply nth_error_nth'. specialize (Hlow i Hi). fold len. lia. }
  set (cl := fun i => if (i =? k - 1)%nat then {| c_mean := nth (lowf i) data 0; c_low := lowf i; c_high := len; c_sum := nth (lowf i) data 0 |}
                      else {| c_mean := nth (lowf i) data 0; c_low := lowf i; c_high := lowf i; c_sum := 0 |}).
  assert (Einit : all_some (map (init_cluster data k) (seq 0 k)) = Some (map cl (seq 0 k))).
  { apply all_some_map. intros i I. apply in_seq in I. unfold init_cluster. fold len. fold (lowf i). rewrite Hnth by lia. reflexivity. }
  assert (Emean : map c_mean (map cl (seq 0 k)) = start k data).
  { rewrite map_map. unfold start. fold len. apply map_ext. intros i. unfold cl. fold (lowf i). destruct (i =? k - 1)%nat; reflexivity. }
  assert (Ch : chain None (start k data)).
  { unfold start. apply (chain_map _ k); [|reflexivity|intros; exact I].
    intros i j Hij Hj. fold len. fold (lowf i). fold (lowf j).
    apply (sorted_nth data Hs (lowf i) (lowf j)); [|apply Hnth; lia|apply Hnth; lia].
    unfold lowf. apply Nat.div_le_mono; [lia|]. nia. }
  assert (Rg : forall m, In m (start k data) -> a <= m <= cap b).
  { intros m I. unfold start in I. apply in_map_iff in I. destruct I as [i [<- I]]. apply in_seq in I. fold len. fold (lowf i).
    assert (J : In (nth (lowf i) data 0) data) by (apply nth_In; fold len; specialize (Hlow i ltac:(lia)); lia).
    specialize (Hr _ J). unfold cap. destruct (b <? 0); lia. }
  unfold kmeans. fold len.
  replace ((len =? 0)%nat || (k <=? 1)%nat) with false
    by (symmetry; apply orb_false_iff; split; [apply Nat.eqb_neq; lia|apply Nat.leb_gt; lia]).
  rewrite Einit. change (Z.of_nat len) with (zlen data). set (n := Z.to_nat (2 * (Z.log2 (zlen data) + 1))).
  destruct (iterate_ok data Hs Hbd tmin tmax a b Hr Ht n (map cl (seq 0 k))) as [l' [E1 E2]].
  - apply Forall_forall. intros c I. apply in_map_iff in I. destruct I as [i [<- I]]. apply in_seq in I.
    specialize (Hlow i ltac:(lia)). unfold cl, in_data. destruct (i =? k - 1)%nat eqn:Q; cbn [c_low c_high c_sum]; fold len.
    + apply Nat.eqb_eq in Q. subst i. split; [lia|]. split; [lia|]. rewrite Hlast.
      pose proof (Hnth (k - 1)%nat ltac:(lia)) as N. rewrite Hlast in N. apply P_step in N.
      replace (S (len - 1)) with len in N by lia. lia.
    + split; [lia|]. split; [lia|]. lia.
  - destruct k; [lia|]. discriminate.
  - intros c rest E. destruct k as [|k]; [lia|]. cbn [seq map] in E. injection E as <- _. unfold cl.
    destruct (0 =? S k - 1)%nat; cbn [c_low]; unfold lowf; apply Nat.div_small; lia.
  - intros c. destruct k as [|k]; [lia|]. rewrite seq_S, map_app. cbn [map]. rewrite last_last. unfold cl.
    replace (S k - 1)%nat with k by lia. rewrite Nat.add_0_l, Nat.eqb_refl. reflexivity.
  - rewrite Emean. exact Ch.
  - rewrite Emean. exact Rg.
  - rewrite E1. exists (map c_mean l'). rewrite E2, Emean. split; [reflexivity|]. split; [reflexivity|].
    clear E1 E2 l'. 
    assert (G : length (Nat.iter n (round data) (start k data)) = k /\ chain None (Nat.iter n (round data) (start k data)) /\
      forall m, In m (Nat.iter n (round data) (start k data)) -> a <= m <= cap b).
    { induction n as [|n IH].
      - change (Nat.iter 0 (round data) (start k data)) with (start k data). split; [|split; assumption].
        unfold start. rewrite map_length, seq_length. reflexivity.
      - change (Nat.iter (S n) (round data) (start k data)) with (round data (Nat.iter n (round data) (start k data))).
        destruct IH as (I1 & I2 & I3). split; [|split].
        + unfold round. rewrite round_from_length. exact I1.
        + apply (round_sorted data); assumption.
        + unfold round. intros m Im. eapply (round_range data); [exact Hr|exact I3|exact Im]. }
    exact G.
Qed.
