(** Levels and signs are read back: scan order, contexts, the two loops. *)
From Coq Require Import Sorted.
From Verif Require Import Coef_model Coef_spec Quant_scan Coef_proof.
Open Scope string_scope.
Open Scope Z_scope.
Open Scope list_scope.

(** ** The scans: sorted, complete *)
Definition before (cls : Z) (p q : Z * Z) : Prop :=
  match cls with
  | 0 => fst p + snd p <= fst q + snd q
  | 1 => fst p < fst q \/ fst p = fst q /\ snd p <= snd q
  | _ => snd p < snd q \/ snd p = snd q /\ fst p <= fst q
  end.

Lemma in_upto n x : In x (upto n) <-> 0 <= x < n.
Proof.
  unfold upto. rewrite in_map_iff. split.
  - intros [k [<- H]]. apply in_seq in H. lia.
  - intros H. exists (Z.to_nat x). split; [lia|]. apply in_seq. lia.
Qed.
Lemma sorted_seq k n : StronglySorted lt (seq k n).
Proof.
  revert k. induction n as [|n IH]; intros k; cbn [seq]; constructor; [apply IH|].
  rewrite Forall_forall. intros x Hx. apply in_seq in Hx. lia.
Qed.
Lemma sorted_upto n : StronglySorted Z.lt (upto n).
Proof.
  unfold upto. generalize (sorted_seq 0 (Z.to_nat n)). generalize (seq 0 (Z.to_nat n)).
  induction 1 as [|x l _ IH F]; cbn [map]; constructor; [exact IH|].
  rewrite Forall_forall in *. intros y Hy. apply in_map_iff in Hy. destruct Hy as [z [<- Hz]].
  specialize (F _ Hz). lia.
Qed.
Lemma sorted_app {A} (R : A -> A -> Prop) l m :
  StronglySorted R l -> StronglySorted R m -> (forall x y, In x l -> In y m -> R x y) -> StronglySorted R (l ++ m).
Proof.
  induction 1 as [|x l _ IH F]; intros M C; cbn [app]; [exact M|]. constructor.
  - apply IH; [exact M|]. intros a b Ha Hb. apply C; [right; exact Ha|exact Hb].
  - rewrite Forall_forall in *. intros y Hy. apply in_app_iff in Hy. destruct Hy as [Hy|Hy]; [apply F, Hy|].
    apply C; [left; reflexivity|exact Hy].
Qed.
Lemma sorted_flat_map {A} (R : A -> A -> Prop) (f : Z -> list A) l :
  StronglySorted Z.lt l -> (forall d, In d l -> StronglySorted R (f d)) ->
  (forall d e x y, d < e -> In x (f d) -> In y (f e) -> R x y) -> StronglySorted R (flat_map f l).
Proof.
  intros Sl Hf Hc. induction Sl as [|d l Sl IH F]; cbn [flat_map]; [constructor|].
  apply sorted_app; [apply Hf; left; reflexivity|apply IH; intros e He; apply Hf; right; exact He|].
  intros x y Hx Hy. apply in_flat_map in Hy. destruct Hy as [e [He Hy]].
  rewrite Forall_forall in F. exact (Hc d e x y (F e He) Hx Hy).
Qed.
Lemma sorted_all {A} (R : A -> A -> Prop) l : (forall x y, In x l -> In y l -> R x y) -> StronglySorted R l.
Proof.
  induction l as [|x l IH]; intros H; constructor.
  - apply IH. intros a b Ha Hb. apply H; right; assumption.
  - rewrite Forall_forall. intros y Hy. apply H; [left; reflexivity|right; exact Hy].
Qed.
Lemma sorted_map {A} (R : A -> A -> Prop) (f : Z -> A) l :
  StronglySorted Z.lt l -> (forall x y, x < y -> R (f x) (f y)) -> StronglySorted R (map f l).
Proof.
  intros Sl H. induction Sl as [|x l Sl IH F]; cbn [map]; constructor; [exact IH|].
  rewrite Forall_forall in *. intros y Hy. apply in_map_iff in Hy. destruct Hy as [z [<- Hz]]. apply H, F, Hz.
Qed.

Lemma in_diagonal w h d c r : In (c, r) (diagonal w h d) <-> 0 <= c < w /\ 0 <= r < h /\ c + r = d.
Proof.
  unfold diagonal. rewrite in_flat_map. split.
  - intros [x [Hx H]]. apply in_upto in Hx.
    destruct ((0 <=? d - x) && (d - x <? h)) eqn:Q; [|destruct H].
    destruct H as [H|[]]. assert (c = x) by congruence. assert (r = d - x) by congruence. subst c r. clear H. lia.
  - intros [Hc [Hr E]]. exists c. split; [apply in_upto; exact Hc|].
    replace ((0 <=? d - c) && (d - c <? h)) with true by lia. left. f_equal. lia.
Qed.

Lemma scan_complete wl hl ty c r : 0 <= c < coded_dim wl -> 0 <= r < coded_dim hl -> In (c, r) (scan_of wl hl ty).
Proof.
  intros Hc Hr. unfold scan_of. cbv zeta. set (w := coded_dim wl) in *. set (h := coded_dim hl) in *.
  assert (D : In (c, r) (default_scan w h)).
  { unfold default_scan. apply in_flat_map. exists (c + r). split; [apply in_upto; lia|]. cbv zeta.
    destruct (if w =? h then Z.even (c + r) else h <? w); [|apply in_rev; rewrite rev_involutive];
      apply in_diagonal; lia. }
  assert (C : In (c, r) (col_scan w h)).
  { unfold col_scan. apply in_flat_map. exists c. split; [apply in_upto; lia|].
    apply in_map_iff. exists r. split; [reflexivity|apply in_upto; lia]. }
  assert (R : In (c, r) (row_scan w h)).
  { unfold row_scan. apply in_flat_map. exists r. split; [apply in_upto; lia|].
    apply in_map_iff. exists c. split; [reflexivity|apply in_upto; lia]. }
  destruct (class_of ty) as [|[| |]|]; assumption.
Qed.

Lemma scan_range wl hl ty c r : In (c, r) (scan_of wl hl ty) -> 0 <= c < coded_dim wl /\ 0 <= r < coded_dim hl.
Proof.
  unfold scan_of. cbv zeta. set (w := coded_dim wl) in *. set (h := coded_dim hl) in *.
  assert (D : In (c, r) (default_scan w h) -> 0 <= c < w /\ 0 <= r < h).
  { unfold default_scan. intros H. apply in_flat_map in H. destruct H as [d [_ H]]. cbv zeta in H.
    destruct (if w =? h then Z.even d else h <? w); [|rewrite <- in_rev in H]; apply in_diagonal in H; lia. }
  assert (C : In (c, r) (col_scan w h) -> 0 <= c < w /\ 0 <= r < h).
  { unfold col_scan. intros H. apply in_flat_map in H. destruct H as [d [Hd H]].
    apply in_map_iff in H. destruct H as [e [H He]]. apply in_upto in Hd, He. injection H as <- <-. lia. }
  assert (R : In (c, r) (row_scan w h) -> 0 <= c < w /\ 0 <= r < h).
  { unfold row_scan. intros H. apply in_flat_map in H. destruct H as [d [Hd H]].
    apply in_map_iff in H. destruct H as [e [H He]]. apply in_upto in Hd, He. injection H as <- <-. lia. }
  destruct (class_of ty) as [|[| |]|]; assumption.
Qed.

Lemma class_cases ty : class_of ty = 0 \/ class_of ty = 1 \/ class_of ty = 2.
Proof. unfold class_of. destruct (_ || _)%bool; [lia|]. destruct (_ || _)%bool; lia. Qed.

Lemma scan_sorted wl hl ty : StronglySorted (before (class_of ty)) (scan_of wl hl ty).
Proof.
  unfold scan_of. cbv zeta. set (w := coded_dim wl). set (h := coded_dim hl).
  destruct (class_cases ty) as [->|[->| ->]].
  - unfold default_scan. apply sorted_flat_map; [apply sorted_upto| |]; cbv zeta.
    + intros d _. apply sorted_all. intros [c r] [c' r'] H H'.
      destruct (if w =? h then Z.even d else h <? w); [|rewrite <- in_rev in H; rewrite <- in_rev in H'];
        apply in_diagonal in H; apply in_diagonal in H'; cbn [before fst snd]; lia.
    + intros d e [c r] [c' r'] L H H'.
      assert (c + r = d).
      { destruct (if w =? h then Z.even d else h <? w); [|rewrite <- in_rev in H]; apply in_diagonal in H; lia. }
      assert (c' + r' = e).
      { destruct (if w =? h then Z.even e else h <? w); [|rewrite <- in_rev in H']; apply in_diagonal in H'; lia. }
      cbn [before fst snd]. lia.
  - unfold col_scan. apply sorted_flat_map; [apply sorted_upto| |].
    + intros d _. apply sorted_map; [apply sorted_upto|]. intros x y L. cbn [before fst snd]. lia.
    + intros d e [c r] [c' r'] L H H'. apply in_map_iff in H, H'.
      destruct H as [a [H _]], H' as [b [H' _]]. injection H as <- <-. injection H' as <- <-. cbn [before fst snd]. lia.
  - unfold row_scan. apply sorted_flat_map; [apply sorted_upto| |].
    + intros d _. apply sorted_map; [apply sorted_upto|]. intros x y L. cbn [before fst snd]. lia.
    + intros d e [c r] [c' r'] L H H'. apply in_map_iff in H, H'.
      destruct H as [a [H _]], H' as [b [H' _]]. injection H as <- <-. injection H' as <- <-. cbn [before fst snd]. lia.
Qed.

(** a position that is not at or before [p] comes after it *)
Lemma sorted_split cls pre p tl q :
  StronglySorted (before cls) (pre ++ p :: tl) -> In q (pre ++ p :: tl) -> ~ before cls q p -> q <> p -> In q tl.
Proof.
  intros Ss I N D. apply in_app_iff in I. destruct I as [I|[I|I]]; [|congruence|exact I].
  exfalso. apply N. clear N D. induction pre as [|x pre IH]; [destruct I|].
  cbn [app] in Ss. inversion Ss as [|? ? S1 F]; subst. destruct I as [<-|I]; [|apply IH; assumption].
  rewrite Forall_forall in F. apply F. apply in_app_iff. right. left. reflexivity.
Qed.

(** ** One block *)
Section Block.
Variables (wl hl : Z) (coeffs : list Z).
Notation w := (coded_dim wl).
Notation h := (coded_dim hl).
Definition cf (p : Z * Z) : Z := nth (Z.to_nat (fst p * h + snd p)) coeffs 0.
Hypothesis Hwl : 2 <= wl <= 6.
Hypothesis Hhl : 2 <= hl <= 6.
Hypothesis Hlen : zlen coeffs = w * h.

Lemma dim_bounds l : 2 <= l <= 6 -> 4 <= coded_dim l <= 32.
Proof.
  intros H. unfold coded_dim. split.
  - change 4 with (2 ^ 2). apply Z.pow_le_mono_r; lia.
  - change 32 with (2 ^ 5). apply Z.pow_le_mono_r; lia.
Qed.

Lemma level_at_ok c r : 0 <= c < w + 4 -> 0 <= r < h + 4 ->
  level_at h coeffs (c * (h + 4) + r) = Some (if (c <? w) && (r <? h) then Z.min (Z.abs (cf (c, r))) 127 else 0).
Proof.
  intros Hc Hr. pose proof (dim_bounds wl Hwl) as Bw. pose proof (dim_bounds hl Hhl) as Bh.
  unfold level_at. cbv zeta. rewrite Hlen, Z.div_mul by lia.
  assert (Ed : (c * (h + 4) + r) / (h + 4) = c) by (symmetry; apply Z.div_unique with (r := r); lia).
  assert (Em : (c * (h + 4) + r) mod (h + 4) = r) by (symmetry; apply Z.mod_unique with (q := c); lia).
  rewrite Ed, Em. unfold cf. cbn [fst snd].
  assert (B1 : 0 <= c * (h + 4) + r) by nia.
  assert (B2 : c * (h + 4) + r < 1384 - 2 * (h + 4)) by nia.
  replace ((0 <=? c * (h + 4) + r) && (c * (h + 4) + r <? 1384 - 2 * (h + 4))) with true by lia.
  reflexivity.
Qed.

(** the levels known to the decoder *)
Definition known (q : quant) (l : list (Z * Z)) : Prop :=
  forall p, In p l -> q p = Z.min 15 (Z.abs (cf p)).

(** the value used by the encoder for a neighbour *)
Definition nb (c r : Z) : Z := if (c <? w) && (r <? h) then Z.min (Z.abs (cf (c, r))) 127 else 0.

(** neighbours at offsets that come later in the scan *)
Definition later (cls : Z) (o : Z * Z) : Prop :=
  0 <= fst o /\ 0 <= snd o /\ 0 < fst o + snd o.
Lemma offset_after cls p o : cls = 0 \/ cls = 1 \/ cls = 2 -> later cls o ->
  ~ before cls (fst p + snd o, snd p + fst o) p /\ (fst p + snd o, snd p + fst o) <> p.
Proof.
  intros Hc [H1 [H2 H3]]. destruct p as [c r], o as [a b]. cbn [fst snd] in *. split.
  - destruct Hc as [->|[->| ->]]; cbn [before fst snd]; lia.
  - intros E. assert (c + b = c) by congruence. assert (r + a = r) by congruence. lia.
Qed.

Lemma neighbour_same cap ty q pre p tl o :
  scan_of wl hl ty = pre ++ p :: tl -> known q tl -> later (class_of ty) o -> 0 <= cap <= 15 ->
  (if (snd p + fst o <? h) && (fst p + snd o <? w)
   then Z.min (Z.abs (q (fst p + snd o, snd p + fst o))) cap else 0)
  = Z.min cap (nb (fst p + snd o) (snd p + fst o)).
Proof.
  intros E K L Hcap. unfold nb. rewrite andb_comm.
  destruct ((fst p + snd o <? w) && (snd p + fst o <? h)) eqn:Q; [|lia].
  assert (In p (scan_of wl hl ty)) as Ip by (rewrite E; apply in_app_iff; right; left; reflexivity).
  destruct p as [c r]. cbn [fst snd] in *. apply scan_range in Ip.
  destruct L as [L1 [L2 L3]].
  assert (I : In (c + snd o, r + fst o) tl).
  { destruct (offset_after (class_of ty) (c, r) o (class_cases ty)) as [N1 N2]; [repeat split; assumption|].
    cbn [fst snd] in N1, N2. apply (sorted_split (class_of ty) pre (c, r)); try assumption.
    - rewrite <- E. apply scan_sorted.
    - rewrite <- E. apply scan_complete; lia. }
  rewrite (K _ I). lia.
Qed.

Lemma mag3 x y z : 0 <= x -> 0 <= y -> 0 <= z ->
  Z.min ((Z.min x 127 + Z.min y 127 + Z.min z 127 + 1) / 2) 6 =
  Z.min ((Z.min 15 (Z.min x 127) + (Z.min 15 (Z.min y 127) + (Z.min 15 (Z.min z 127) + 0)) + 1) / 2) 6.
Proof. intros. dlia. Qed.
Lemma nb_nonneg c r : 0 <= nb c r.
Proof. unfold nb. destruct (_ && _)%bool; lia. Qed.
Lemma nb_127 c r : nb c r = Z.min (nb c r) 127.
Proof. unfold nb. destruct (_ && _)%bool; lia. Qed.

Lemma hdim : 2 ^ Z.min hl 5 = h. Proof. reflexivity. Qed.

(** offsets as the encoder writes them *)
Lemma lv_at c r i : 0 <= c < w + 4 -> 0 <= r < h + 4 -> i = c * (h + 4) + r ->
  level_at h coeffs i = Some (nb c r).
Proof. intros Hc Hr ->. rewrite level_at_ok by assumption. reflexivity. Qed.

Lemma nz_mag_same ty q pre c r tl :
  scan_of wl hl ty = pre ++ (c, r) :: tl -> known q tl ->
  get_nz_mag (level_at h coeffs) (c * (h + 4) + r) (Z.min hl 5) (class_of ty)
  = Some (mag_sum 3 w h q (c, r) (sig_ref_diff_offset (class_of ty))).
Proof.
  intros E K.
  assert (Ip : In (c, r) (scan_of wl hl ty)) by (rewrite E; apply in_app_iff; right; left; reflexivity).
  apply scan_range in Ip. destruct Ip as [Hc Hr].
  pose proof (dim_bounds wl Hwl) as Bw. pose proof (dim_bounds hl Hhl) as Bh.
  unfold get_nz_mag. rewrite hdim.
  assert (NS : forall o, later (class_of ty) o ->
    (if (r + fst o <? h) && (c + snd o <? w) then Z.min (Z.abs (q (c + snd o, r + fst o))) 3 else 0)
    = Z.min 3 (nb (c + snd o) (r + fst o))).
  { intros o Ho. apply (neighbour_same 3 ty q pre (c, r) tl o E K Ho). lia. }
  unfold mag_sum.
  destruct (class_cases ty) as [Ec|[Ec|Ec]]; rewrite Ec in *; cbn [Z.eqb Pos.eqb sig_ref_diff_offset map fold_right fst snd].
  - rewrite (lv_at c (r + 1)), (lv_at (c + 1) r), (lv_at (c + 1) (r + 1)), (lv_at c (r + 2)), (lv_at (c + 2) r) by lia.
    pose proof (NS (0, 1) ltac:(unfold later; cbn; lia)) as N1. pose proof (NS (1, 0) ltac:(unfold later; cbn; lia)) as N2.
    pose proof (NS (1, 1) ltac:(unfold later; cbn; lia)) as N3. pose proof (NS (0, 2) ltac:(unfold later; cbn; lia)) as N4.
    pose proof (NS (2, 0) ltac:(unfold later; cbn; lia)) as N5.
    cbn [fst snd] in *. rewrite N1, N2, N3, N4, N5. rewrite !Z.add_0_r. f_equal. ring.
  - rewrite (lv_at c (r + 1)), (lv_at (c + 1) r), (lv_at (c + 2) r), (lv_at (c + 3) r), (lv_at (c + 4) r) by lia.
    pose proof (NS (0, 1) ltac:(unfold later; cbn; lia)) as N1. pose proof (NS (1, 0) ltac:(unfold later; cbn; lia)) as N2.
    pose proof (NS (0, 2) ltac:(unfold later; cbn; lia)) as N3. pose proof (NS (0, 3) ltac:(unfold later; cbn; lia)) as N4.
    pose proof (NS (0, 4) ltac:(unfold later; cbn; lia)) as N5.
    cbn [fst snd] in *. rewrite N1, N2, N3, N4, N5. rewrite !Z.add_0_r. f_equal. ring.
  - rewrite (lv_at c (r + 1)), (lv_at (c + 1) r), (lv_at c (r + 2)), (lv_at c (r + 3)), (lv_at c (r + 4)) by lia.
    pose proof (NS (0, 1) ltac:(unfold later; cbn; lia)) as N1. pose proof (NS (1, 0) ltac:(unfold later; cbn; lia)) as N2.
    pose proof (NS (2, 0) ltac:(unfold later; cbn; lia)) as N3. pose proof (NS (3, 0) ltac:(unfold later; cbn; lia)) as N4.
    pose proof (NS (4, 0) ltac:(unfold later; cbn; lia)) as N5.
    cbn [fst snd] in *. rewrite N1, N2, N3, N4, N5. rewrite !Z.add_0_r. f_equal. ring.
Qed.

Lemma br_ctx_same ty q pre c r tl :
  scan_of wl hl ty = pre ++ (c, r) :: tl -> known q tl ->
  get_br_ctx (level_at h coeffs) (c * h + r) (Z.min hl 5) (class_of ty)
  = Some (coeff_br_ctx wl hl (class_of ty) q (c, r)).
Proof.
  intros E K.
  assert (Ip : In (c, r) (scan_of wl hl ty)) by (rewrite E; apply in_app_iff; right; left; reflexivity).
  apply scan_range in Ip. destruct Ip as [Hc Hr].
  pose proof (dim_bounds wl Hwl) as Bw. pose proof (dim_bounds hl Hhl) as Bh.
  unfold get_br_ctx. rewrite hdim. cbv zeta.
  assert (Ed : (c * h + r) / h = c) by (symmetry; apply Z.div_unique with (r := r); lia).
  rewrite Ed. replace (c * h + r - c * h) with r by lia.
  rewrite (lv_at c (r + 1)), (lv_at (c + 1) r) by lia.
  pose proof (nb_nonneg c (r + 1)) as P1. pose proof (nb_nonneg (c + 1) r) as P2.
  pose proof (nb_127 c (r + 1)) as P3. pose proof (nb_127 (c + 1) r) as P4.
  replace (255 <? nb c (r + 1) + nb (c + 1) r) with false by lia.
  assert (NS : forall o, later (class_of ty) o ->
    (if (r + fst o <? h) && (c + snd o <? w) then Z.min (Z.abs (q (c + snd o, r + fst o))) 15 else 0)
    = Z.min 15 (nb (c + snd o) (r + fst o))).
  { intros o Ho. apply (neighbour_same 15 ty q pre (c, r) tl o E K Ho). lia. }
  pose proof (NS (0, 1) ltac:(unfold later; cbn; lia)) as N1. pose proof (NS (1, 0) ltac:(unfold later; cbn; lia)) as N2.
  assert (Z : (c * h + r =? 0) = (c =? 0) && (r =? 0)).
  { apply eq_true_iff_eq. rewrite andb_true_iff, !Z.eqb_eq. nia. }
  unfold coeff_br_ctx, mag_sum. cbv zeta.
  destruct (class_cases ty) as [Ec|[Ec|Ec]]; rewrite Ec in *;
    cbn [Z.eqb Pos.eqb mag_ref_offset map fold_right fst snd]; cbn [fst snd] in N1, N2; rewrite N1, N2.
  - rewrite (lv_at (c + 1) (r + 1)) by lia.
    pose proof (NS (1, 1) ltac:(unfold later; cbn; lia)) as N3. cbn [fst snd] in N3. rewrite N3.
    pose proof (mag3 (nb c (r + 1)) (nb (c + 1) r) (nb (c + 1) (r + 1)) P1 P2 (nb_nonneg _ _)) as M.
    rewrite <- !nb_127 in M. rewrite !Z.add_0_r in *.
    replace (Z.min 15 (nb (c + 1) r) + (Z.min 15 (nb c (r + 1)) + Z.min 15 (nb (c + 1) (r + 1))))
      with (Z.min 15 (nb c (r + 1)) + (Z.min 15 (nb (c + 1) r) + Z.min 15 (nb (c + 1) (r + 1)))) by ring.
    rewrite M, Z. reflexivity.
  - replace (c * (h + 4) + r + (h + 4) * 2) with ((c + 2) * (h + 4) + r) by ring.
    rewrite (lv_at (c + 2) r) by lia.
    pose proof (NS (0, 2) ltac:(unfold later; cbn; lia)) as N3. cbn [fst snd] in N3. rewrite N3.
    pose proof (mag3 (nb c (r + 1)) (nb (c + 1) r) (nb (c + 2) r) P1 P2 (nb_nonneg _ _)) as M.
    rewrite <- !nb_127 in M. rewrite !Z.add_0_r in *.
    replace (Z.min 15 (nb (c + 1) r) + (Z.min 15 (nb c (r + 1)) + Z.min 15 (nb (c + 2) r)))
      with (Z.min 15 (nb c (r + 1)) + (Z.min 15 (nb (c + 1) r) + Z.min 15 (nb (c + 2) r))) by ring.
    rewrite M, Z. reflexivity.
  - rewrite (lv_at c (r + 2)) by lia.
    pose proof (NS (2, 0) ltac:(unfold later; cbn; lia)) as N3. cbn [fst snd] in N3. rewrite N3.
    pose proof (mag3 (nb c (r + 1)) (nb (c + 1) r) (nb c (r + 2)) P1 P2 (nb_nonneg _ _)) as M.
    rewrite <- !nb_127 in M. rewrite !Z.add_0_r in *.
    replace (Z.min 15 (nb (c + 1) r) + (Z.min 15 (nb c (r + 1)) + Z.min 15 (nb c (r + 2))))
      with (Z.min 15 (nb c (r + 1)) + (Z.min 15 (nb (c + 1) r) + Z.min 15 (nb c (r + 2)))) by ring.
    rewrite M, Z. reflexivity.
Qed.
End Block.
