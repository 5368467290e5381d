(** The programs of Itx_model and Itx_spec compute the same formulas.  Both run over
    expression trees; the trees are compared by computation. *)
From Verif Require Import Base.
From Verif Require Itx_model Itx_spec.
Local Open Scope Z_scope.

Inductive ex := V (k : Z) | Bf (a : Z) (x : ex) (b : Z) (y : ex) | Ad (x y : ex) | Sb (x y : ex) | Ng (x : ex).
Definition trees : Itx_model.algebra ex :=
  {| Itx_model.zero := V (-1); Itx_model.neg := Ng; Itx_model.btf := Bf; Itx_model.add := Ad; Itx_model.sub := Sb; Itx_model.negadd := fun x y => Sb y x |}.
Definition tree_rot (a : Z) (x y : ex) : ex * ex :=
  (Bf (Itx_spec.cos128 a) x (- Itx_spec.sin128 a) y, Bf (Itx_spec.sin128 a) x (Itx_spec.cos128 a) y).
Definition tree_run := Itx_spec.run (V (-1)) tree_rot Ad Sb Ng.
Definition vars (n : Z) : list ex := map V (Itx_spec.upto n).

Fixpoint eqx (a b : ex) : bool :=
  match a, b with
  | V i, V j => Z.eqb i j
  | Bf a x b y, Bf a' x' b' y' => (Z.eqb a a' && Z.eqb b b' && eqx x x' && eqx y y') || (Z.eqb a b' && Z.eqb b a' && eqx x y' && eqx y x')
  | Ad x y, Ad x' y' => (eqx x x' && eqx y y') || (eqx x y' && eqx y x')
  | Sb x y, Sb x' y' => eqx x x' && eqx y y'
  | Ng x, Ng y => eqx x y
  | _, _ => false
  end.
(* is the value within r bits; is it within some more *)
Definition narrow (e : ex) : bool := match e with V _ | Ad _ _ | Sb _ _ => true | _ => false end.
Definition wide (e : ex) : bool := match e with Ng _ => false | _ => true end.
Fixpoint safe (e : ex) : bool :=
  match e with
  | V _ => true
  | Bf a x b y => (Z.abs a <=? 4096) && (Z.abs b <=? 4096) && narrow x && narrow y && safe x && safe y
  | Ad x y | Sb x y => wide x && wide y && safe x && safe y
  | Ng x => wide x && safe x
  end.
Fixpoint same (l m : list ex) : bool :=
  match l, m with [], [] => true | x :: l, y :: m => safe x && eqx x y && same l m | _, _ => false end.

(** ** Values of trees *)
Definition env (v : list Z) (k : Z) : Z := if k <? 0 then 0 else nth (Z.to_nat k) v 0.
Fixpoint denM (r : Z) (v : list Z) (e : ex) : Z :=
  match e with
  | V k => env v k
  | Bf a x b y => Itx_model.half_btf a (denM r v x) b (denM r v y)
  | Ad x y => Itx_model.clamp_value (Itx_model.i32 (denM r v x + denM r v y)) r
  | Sb x y => Itx_model.clamp_value (Itx_model.i32 (denM r v x - denM r v y)) r
  | Ng x => Itx_model.i32 (- denM r v x)
  end.
Fixpoint denS (r : Z) (v : list Z) (e : ex) : Z :=
  match e with
  | V k => env v k
  | Bf a x b y => Itx_spec.Round2 (a * denS r v x + b * denS r v y) 12
  | Ad x y => Itx_spec.saturate r (denS r v x + denS r v y)
  | Sb x y => Itx_spec.saturate r (denS r v x - denS r v y)
  | Ng x => - denS r v x
  end.
Lemma eqx_sound r v : forall a b, eqx a b = true -> denS r v a = denS r v b.
Proof.
  induction a as [k|a x IHx b y IHy|x IHx y IHy|x IHx y IHy|x IHx]; intros [k'|a' x' b' y'|x' y'|x' y'|x'] E; cbn [eqx denS] in *;
    try discriminate.
  - apply Z.eqb_eq in E; subst; reflexivity.
  - apply orb_true_iff in E; destruct E as [E|E]; repeat (apply andb_true_iff in E; destruct E as [E ?]);
      repeat match goal with H : (_ =? _) = true |- _ => apply Z.eqb_eq in H; subst end; erewrite IHx, IHy by eassumption;
      f_equal; ring.
  - apply orb_true_iff in E; destruct E as [E|E]; apply andb_true_iff in E; destruct E as [E F]; erewrite IHx, IHy by eassumption;
      f_equal; ring.
  - apply andb_true_iff in E; destruct E as [E F]; erewrite IHx, IHy by eassumption; reflexivity.
  - erewrite IHx by eassumption; reflexivity.
Qed.

Lemma i32_id x : - 2 ^ 31 <= x < 2 ^ 31 -> Itx_model.i32 x = x.
Proof. intros. unfold Itx_model.i32. rewrite Z.mod_small; lia. Qed.
Lemma clamp_saturate x r : Itx_model.clamp_value x r = Itx_spec.saturate r x.
Proof.
  unfold Itx_model.clamp_value, Itx_model.clamp, Itx_spec.saturate, Itx_spec.Clip3.
  destruct (Z_lt_le_dec (r - 1) 0) as [N|N].
  - rewrite (Z.pow_neg_r 2) by lia. replace (Z.shiftl 1 (r - 1)) with 0; [reflexivity|].
    rewrite Z.shiftl_div_pow2 by lia. symmetry; apply Z.div_small. split; [lia|]. apply Z.pow_gt_1; lia.
  - rewrite Z.shiftl_mul_pow2, Z.mul_1_l by lia. reflexivity.
Qed.
Lemma saturate_bound r x : 1 <= r <= 18 -> - 2 ^ 17 <= Itx_spec.saturate r x < 2 ^ 17.
Proof.
  intros R. assert (1 <= 2 ^ (r - 1) <= 2 ^ 17) as B by (split; [apply (Z.pow_le_mono_r 2 0); lia|apply Z.pow_le_mono_r; lia]).
  unfold Itx_spec.saturate, Itx_spec.Clip3. generalize dependent (2 ^ (r - 1)). intros p B.
  destruct (x <? - p) eqn:E; [lia|]. destruct (p - 1 <? x) eqn:F; lia.
Qed.
Lemma mul_bound c x : Z.abs c <= 4096 -> - 2 ^ 17 <= x < 2 ^ 17 -> - 2 ^ 29 <= c * x <= 2 ^ 29.
Proof.
  intros C X. assert (Z.abs (c * x) <= 2 ^ 29) as B; [|lia].
  rewrite Z.abs_mul. change (2 ^ 29) with (4096 * 2 ^ 17). apply Z.mul_le_mono_nonneg; lia.
Qed.
Lemma round2_12 x : Itx_spec.Round2 x 12 = (x + 2048) / 4096.
Proof. unfold Itx_spec.Round2. cbn [Z.eqb]. rewrite Z.shiftr_div_pow2 by lia. reflexivity. Qed.
Lemma btf_eq a x b y : Z.abs a <= 4096 -> Z.abs b <= 4096 -> - 2 ^ 17 <= x < 2 ^ 17 -> - 2 ^ 17 <= y < 2 ^ 17 ->
  Itx_model.half_btf a x b y = Itx_spec.Round2 (a * x + b * y) 12 /\ - 2 ^ 19 <= Itx_spec.Round2 (a * x + b * y) 12 <= 2 ^ 19.
Proof.
  intros A B X Y. pose proof (mul_bound a x A X) as P. pose proof (mul_bound b y B Y) as Q.
  rewrite round2_12. unfold Itx_model.half_btf. generalize dependent (a * x). intros p P. generalize dependent (b * y). intros q Q.
  clear A B X Y. rewrite (i32_id p), (i32_id q) by lia. rewrite (i32_id (p + q)) by lia.
  change (Z.shiftl 1 (12 - 1)) with 2048. rewrite i32_id by lia. rewrite Z.shiftr_div_pow2 by lia. change (2 ^ 12) with 4096.
  split; [reflexivity|]. dlia.
Qed.
Definition inputs (r : Z) (v : list Z) : Prop := Forall (fun x => - 2 ^ (r - 1) <= x <= 2 ^ (r - 1) - 1) v.
Section Safe.
Variables (r : Z) (v : list Z).
Hypothesis R : 1 <= r <= 18.
Hypothesis I : inputs r v.
Lemma env_bound k : - 2 ^ 17 <= env v k < 2 ^ 17.
Proof.
  unfold env. destruct (k <? 0); [lia|]. destruct (nth_in_or_default (Z.to_nat k) v 0) as [N|N]; [|rewrite N; lia].
  unfold inputs in I. rewrite Forall_forall in I. apply I in N.
  assert (2 ^ (r - 1) <= 2 ^ 17) by (apply Z.pow_le_mono_r; lia). lia.
Qed.
Lemma safe_sound : forall e, safe e = true ->
  denM r v e = denS r v e /\ (narrow e = true -> - 2 ^ 17 <= denS r v e < 2 ^ 17) /\ (wide e = true -> - 2 ^ 19 <= denS r v e <= 2 ^ 19).
Proof.
  induction e as [k|a x IHx b y IHy|x IHx y IHy|x IHx y IHy|x IHx]; intros E; cbn [safe denM denS narrow wide] in *;
    repeat (apply andb_true_iff in E; destruct E as [E ?]).
  - pose proof (env_bound k). split; [reflexivity|]. lia.
  - destruct (IHx ltac:(assumption)) as (-> & Nx & _). destruct (IHy ltac:(assumption)) as (-> & Ny & _).
    destruct (btf_eq a (denS r v x) b (denS r v y)) as [-> Bd]; [lia|lia|auto|auto|].
    split; [reflexivity|]. split; [discriminate|]. intros _. exact Bd.
  - destruct (IHx ltac:(assumption)) as (-> & _ & Wx). destruct (IHy ltac:(assumption)) as (-> & _ & Wy).
    specialize (Wx ltac:(assumption)). specialize (Wy ltac:(assumption)). rewrite i32_id by lia. rewrite clamp_saturate.
    pose proof (saturate_bound r (denS r v x + denS r v y) R). split; [reflexivity|]. lia.
  - destruct (IHx ltac:(assumption)) as (-> & _ & Wx). destruct (IHy ltac:(assumption)) as (-> & _ & Wy).
    specialize (Wx ltac:(assumption)). specialize (Wy ltac:(assumption)). rewrite i32_id by lia. rewrite clamp_saturate.
    pose proof (saturate_bound r (denS r v x - denS r v y) R). split; [reflexivity|]. lia.
  - destruct (IHx ltac:(assumption)) as (-> & _ & Wx). specialize (Wx ltac:(assumption)). rewrite i32_id by lia.
    split; [reflexivity|]. split; discriminate.
Qed.
Lemma same_sound : forall l m, same l m = true -> map (denM r v) l = map (denS r v) m.
Proof.
  induction l as [|x l IH]; intros [|y m] E; cbn [same map] in *; try discriminate; [reflexivity|].
  apply andb_true_iff in E; destruct E as [E F]. apply andb_true_iff in E; destruct E as [E G].
  f_equal; [|auto]. rewrite <- (eqx_sound r v _ _ G). apply safe_sound, E.
Qed.

(** ** Running over trees, then taking values, is running over values *)
Lemma negadd_eq x y : Itx_model.i32 (Itx_model.i32 (- x) + y) = Itx_model.i32 (y - x).
Proof.
  unfold Itx_model.i32. f_equal.
  replace ((- x + 2 ^ 31) mod 2 ^ 32 - 2 ^ 31 + y + 2 ^ 31) with ((- x + 2 ^ 31) mod 2 ^ 32 + y) by ring.
  rewrite Zplus_mod_idemp_l. f_equal. ring.
Qed.
Lemma el_hom l i : Itx_model.el (Itx_model.ints r) (map (denM r v) l) i = denM r v (Itx_model.el trees l i).
Proof. unfold Itx_model.el. change (Itx_model.zero (Itx_model.ints r)) with (denM r v (V (-1))). apply map_nth. Qed.
Lemma apply_hom l s : Itx_model.apply (Itx_model.ints r) (map (denM r v) l) s = map (denM r v) (Itx_model.apply trees l s).
Proof.
  unfold Itx_model.apply. rewrite map_map. apply map_ext. intros o.
  destruct o; cbn [Itx_model.eval Itx_model.ints trees Itx_model.neg Itx_model.btf Itx_model.add Itx_model.sub Itx_model.negadd denM];
    rewrite ?el_hom; try reflexivity. rewrite negadd_eq. reflexivity.
Qed.
Lemma stages_hom s : forall l, Itx_model.stages (Itx_model.ints r) s (map (denM r v) l) = map (denM r v) (Itx_model.stages trees s l).
Proof.
  unfold Itx_model.stages. induction s as [|a s IH]; intros l; [reflexivity|]. cbn [fold_left]. rewrite apply_hom. apply IH.
Qed.
Lemma idct4_hom l : Itx_model.idct4 (Itx_model.ints r) (map (denM r v) l) = map (denM r v) (Itx_model.idct4 trees l).
Proof. apply stages_hom. Qed.
Lemma idct8_hom l : Itx_model.idct8 (Itx_model.ints r) (map (denM r v) l) = map (denM r v) (Itx_model.idct8 trees l).
Proof. unfold Itx_model.idct8. rewrite apply_hom, idct4_hom, stages_hom, <- map_app. apply apply_hom. Qed.
Lemma idct16_hom l : Itx_model.idct16 (Itx_model.ints r) (map (denM r v) l) = map (denM r v) (Itx_model.idct16 trees l).
Proof. unfold Itx_model.idct16. rewrite apply_hom, idct8_hom, stages_hom, <- map_app. apply apply_hom. Qed.

(* the specification *)
Lemma at_hom l i : Itx_spec.at_ 0 (map (denS r v) l) i = denS r v (Itx_spec.at_ (V (-1)) l i).
Proof. unfold Itx_spec.at_. change 0 with (denS r v (V (-1))). apply map_nth. Qed.
Lemma put_hom x : forall l i, Itx_spec.put (map (denS r v) l) i (denS r v x) = map (denS r v) (Itx_spec.put l i x).
Proof. induction l as [|y l IH]; intros [|i]; cbn [map Itx_spec.put]; try reflexivity. rewrite IH. reflexivity. Qed.
Lemma set_hom x l i : Itx_spec.set_ (map (denS r v) l) i (denS r v x) = map (denS r v) (Itx_spec.set_ l i x).
Proof. apply put_hom. Qed.
Lemma rot_hom a x y : Itx_spec.rotation a (denS r v x) (denS r v y) = (denS r v (fst (tree_rot a x y)), denS r v (snd (tree_rot a x y))).
Proof. unfold Itx_spec.rotation, tree_rot. cbn [fst snd denS]. f_equal; f_equal; ring. Qed.
Lemma step_hom l k :
  Itx_spec.step 0 Itx_spec.rotation (fun x y => Itx_spec.saturate r (x + y)) (fun x y => Itx_spec.saturate r (x - y)) Z.opp (map (denS r v) l) k
  = map (denS r v) (Itx_spec.step (V (-1)) tree_rot Ad Sb Ng l k).
Proof.
  destruct k as [a b g f|a b f|f|f]; cbn [Itx_spec.step].
  - rewrite !at_hom, rot_hom. destruct (tree_rot g _ _) as [x y]. cbn [fst snd]. destruct f; rewrite !set_hom; reflexivity.
  - destruct f; rewrite !at_hom;
    change (Itx_spec.saturate r (denS r v ?x + denS r v ?y)) with (denS r v (Ad x y));
    change (Itx_spec.saturate r (denS r v ?x - denS r v ?y)) with (denS r v (Sb x y)); rewrite !set_hom; reflexivity.
  - rewrite map_map. apply map_ext. intros i. apply at_hom.
  - revert l. induction f as [|i f IH]; intros l; [reflexivity|]. cbn [fold_left]. rewrite at_hom.
    change (- denS r v ?x) with (denS r v (Ng x)). rewrite set_hom. apply IH.
Qed.
Lemma run_hom p : forall l, Itx_spec.process r p (map (denS r v) l) = map (denS r v) (tree_run p l).
Proof.
  unfold Itx_spec.process, tree_run, Itx_spec.run. induction p as [|k p IH]; intros l; [reflexivity|].
  cbn [fold_left]. rewrite step_hom. apply IH.
Qed.
Lemma vars_map (den : ex -> Z) n : (forall k, den (V k) = env v k) -> length v = Z.to_nat n -> map den (vars n) = v.
Proof.
  intros D L. unfold vars, Itx_spec.upto. rewrite !map_map. rewrite <- L. clear L. rename I into J. clear J.
  transitivity (map (fun x => nth x v 0) (seq 0 (length v))).
  - apply map_ext. intros k. rewrite D. unfold env. replace (Z.of_nat k <? 0) with false by lia. rewrite Nat2Z.id. reflexivity.
  - clear. induction v as [|x l IH]; [reflexivity|]. cbn [length seq map nth]. f_equal. rewrite <- seq_shift, map_map. exact IH.
Qed.
Lemma agree n f p : length v = Z.to_nat n ->
  (forall l, f (map (denM r v) l) = map (denM r v) (p l)) ->
  forall q, same (p (vars n)) (tree_run q (vars n)) = true -> f v = Itx_spec.process r q v.
Proof.
  intros L Hf q E. rewrite <- (vars_map (denM r v) n) at 1 by (auto; reflexivity). rewrite Hf.
  rewrite (same_sound _ _ E), <- run_hom. f_equal. apply vars_map; auto. Qed.
Theorem idct4_correct : length v = 4%nat -> Itx_model.idct4 (Itx_model.ints r) v = Itx_spec.process r (Itx_spec.dct_process 2) v.
Proof. intros L. apply (agree 4 _ _ L idct4_hom). vm_compute. reflexivity. Qed.
Theorem idct8_correct : length v = 8%nat -> Itx_model.idct8 (Itx_model.ints r) v = Itx_spec.process r (Itx_spec.dct_process 3) v.
Proof. intros L. apply (agree 8 _ _ L idct8_hom). vm_compute. reflexivity. Qed.
Theorem idct16_correct : length v = 16%nat -> Itx_model.idct16 (Itx_model.ints r) v = Itx_spec.process r (Itx_spec.dct_process 4) v.
Proof. intros L. apply (agree 16 _ _ L idct16_hom). vm_compute. reflexivity. Qed.
Theorem idct32_correct : length v = 32%nat -> Itx_model.idct32 (Itx_model.ints r) v = Itx_spec.process r (Itx_spec.dct_process 5) v.
Proof. intros L. apply (agree 32 _ _ L (stages_hom _)). vm_compute. reflexivity. Qed.
Theorem idct64_correct : length v = 64%nat -> Itx_model.idct64 (Itx_model.ints r) v = Itx_spec.process r (Itx_spec.dct_process 6) v.
Proof. intros L. apply (agree 64 _ _ L (stages_hom _)). vm_compute. reflexivity. Qed.
Theorem iadst8_correct : length v = 8%nat -> Itx_model.iadst8 (Itx_model.ints r) v = Itx_spec.process r Itx_spec.adst8_process v.
Proof. intros L. apply (agree 8 _ _ L (stages_hom _)). vm_compute. reflexivity. Qed.
Theorem iadst16_correct : length v = 16%nat -> Itx_model.iadst16 (Itx_model.ints r) v = Itx_spec.process r Itx_spec.adst16_process v.
Proof. intros L. apply (agree 16 _ _ L (stages_hom _)). vm_compute. reflexivity. Qed.
End Safe.

(** ** The transforms of INV_TXFM_FNS *)
Lemma shift_eq x b : 0 <= b -> Itx_model.round_shift x b = Itx_spec.Round2 x b.
Proof.
  intros B. unfold Itx_model.round_shift, Itx_spec.Round2. destruct (b =? 0) eqn:E.
  - apply Z.eqb_eq in E; subst. change (Z.shiftr (Z.shiftl 1 0) 1) with 0. rewrite Z.shiftr_0_r. lia.
  - rewrite Z.shiftr_shiftl_l by lia. reflexivity.
Qed.
Lemma nth_bound r v k : 1 <= r <= 18 -> inputs r v -> - 2 ^ 17 <= nth k v 0 < 2 ^ 17.
Proof.
  intros R I. pose proof (env_bound r v R I (Z.of_nat k)) as B. unfold env in B. rewrite Nat2Z.id in B.
  replace (Z.of_nat k <? 0) with false in B by lia. exact B.
Qed.
Lemma iadst4_correct r v : 1 <= r <= 18 -> inputs r v -> Itx_model.iadst4 v = Itx_spec.adst4 v.
Proof.
  intros R I. unfold Itx_model.iadst4, Itx_spec.adst4, Itx_spec.at_.
  unfold Itx_spec.SINPI_1_9, Itx_spec.SINPI_2_9, Itx_spec.SINPI_3_9, Itx_spec.SINPI_4_9. cbv zeta.
  pose proof (nth_bound r v (Z.to_nat 0) R I). pose proof (nth_bound r v (Z.to_nat 1) R I).
  pose proof (nth_bound r v (Z.to_nat 2) R I). pose proof (nth_bound r v (Z.to_nat 3) R I). clear R I.
  generalize dependent (nth (Z.to_nat 0) v 0). generalize dependent (nth (Z.to_nat 1) v 0).
  generalize dependent (nth (Z.to_nat 2) v 0). generalize dependent (nth (Z.to_nat 3) v 0). intros x3 X3 x2 X2 x1 X1 x0 X0.
  repeat match goal with |- context [Itx_model.i32 ?e] =>
    lazymatch e with context [Itx_model.i32 _] => fail | _ => rewrite (i32_id e) by lia end end.
  rewrite !shift_eq by lia. repeat f_equal; ring.
Qed.

Definition allowed (k : Itx_spec.kind) (n : Z) : bool :=
  match k with Itx_spec.Dct => (2 <=? n) && (n <=? 6) | Itx_spec.Adst => (2 <=? n) && (n <=? 4) | Itx_spec.Ident => (2 <=? n) && (n <=? 5) end.
Definition kind_of (k : Itx_model.tx_1d) : Itx_spec.kind :=
  match k with Itx_model.DCT => Itx_spec.Dct | Itx_model.ADST | Itx_model.FLIPADST => Itx_spec.Adst | Itx_model.IDTX => Itx_spec.Ident end.
Definition flips (k : Itx_model.tx_1d) : bool := match k with Itx_model.FLIPADST => true | _ => false end.
Lemma process_len r v n p : length v = Z.to_nat n -> length (Itx_spec.process r p v) = length (tree_run p (vars n)).
Proof.
  intros L. rewrite <- (vars_map v (denS r v) n) by (auto; reflexivity). rewrite run_hom, map_length.
  reflexivity.
Qed.
Lemma transform_len k n r v : allowed k n = true -> length v = Z.to_nat (2 ^ n) -> length (Itx_spec.transform k n r v) = Z.to_nat (2 ^ n).
Proof.
  intros A L. destruct k; cbn [allowed Itx_spec.transform] in *.
  - rewrite (process_len r v _ _ L).
    assert (n = 2 \/ n = 3 \/ n = 4 \/ n = 5 \/ n = 6) as [ -> | [ -> | [ -> | [ -> | ->]]]] by lia; vm_compute; reflexivity.
  - assert (n = 2 \/ n = 3 \/ n = 4) as [ -> | [ -> | ->]] by lia; cbn [Z.eqb Pos.eqb]; [reflexivity| |]; rewrite (process_len r v _ _ L);
      vm_compute; reflexivity.
  - unfold Itx_spec.identity. rewrite map_length. exact L.
Qed.
Lemma denS_zero r m : 1 <= r -> forall e, denS r (repeat 0 m) e = 0.
Proof.
  intros R. assert (1 <= 2 ^ (r - 1)) as P by (apply (Z.pow_le_mono_r 2 0); lia).
  assert (forall x, x = 0 -> Itx_spec.saturate r x = 0) as Sat.
  { intros x ->. unfold Itx_spec.saturate, Itx_spec.Clip3. destruct (0 <? _) eqn:E; [lia|]. destruct (_ <? 0) eqn:F; lia. }
  induction e as [k|a x IHx b y IHy|x IHx y IHy|x IHx y IHy|x IHx]; cbn [denS].
  - unfold env. destruct (k <? 0); [reflexivity|]. apply nth_repeat.
  - rewrite IHx, IHy, !Z.mul_0_r. reflexivity.
  - apply Sat; lia.
  - apply Sat; lia.
  - lia.
Qed.
Lemma process_zero r m p : 1 <= r -> forall x, In x (Itx_spec.process r p (repeat 0 m)) -> x = 0.
Proof.
  intros R x. rewrite <- (vars_map (repeat 0 m) (denS r (repeat 0 m)) (Z.of_nat m)) at 1
    by (try reflexivity; rewrite repeat_length; lia).
  rewrite run_hom. intros E. apply in_map_iff in E. destruct E as [e [<- _]]. apply denS_zero, R.
Qed.
Lemma transform_zero k n r m i : 1 <= r -> Itx_spec.at_ 0 (Itx_spec.transform k n r (repeat 0 m)) i = 0.
Proof.
  intros R. unfold Itx_spec.at_. destruct (nth_in_or_default (Z.to_nat i) (Itx_spec.transform k n r (repeat 0 m)) 0) as [E|E]; [|exact E].
  revert E. generalize (nth (Z.to_nat i) (Itx_spec.transform k n r (repeat 0 m)) 0). intros x E.
  destruct k; cbn [Itx_spec.transform] in E.
  - apply process_zero in E; auto.
  - destruct (n =? 2); [|destruct (n =? 3); apply process_zero in E; auto].
    unfold Itx_spec.adst4, Itx_spec.at_ in E. rewrite !nth_repeat in E. cbn in E. lia.
  - apply in_map_iff in E. destruct E as [y [<- E]]. apply repeat_spec in E. subst y.
    destruct (n =? 2); [reflexivity|]. destruct (n =? 3); [reflexivity|]. destruct (n =? 4); reflexivity.
Qed.
Theorem txfm_correct k n r v : 1 <= r <= 18 -> inputs r v -> allowed (kind_of k) n = true -> length v = Z.to_nat (2 ^ n) ->
  exists l, Itx_model.txfm_fn k n r v = Some l /\ forall i, 0 <= i < 2 ^ n ->
    nth (Z.to_nat i) l 0 = Itx_spec.at_ 0 (Itx_spec.transform (kind_of k) n r v) (if flips k then 2 ^ n - 1 - i else i).
Proof.
  intros R I A L. pose proof (transform_len _ n r v A L) as Len.
  assert (forall k', kind_of k' = kind_of k -> flips k' = false -> Itx_model.txfm_fn k' n r v = Some (Itx_spec.transform (kind_of k') n r v)) as G.
  { intros k' E F. rewrite <- E in A. clear E Len. destruct k'; cbn [kind_of allowed Itx_spec.transform Itx_model.txfm_fn flips] in *; try discriminate.
    - assert (n = 2 \/ n = 3 \/ n = 4 \/ n = 5 \/ n = 6) as [ -> | [ -> | [ -> | [ -> | ->]]]] by lia; cbn [Z.eqb Pos.eqb]; f_equal;
        [apply idct4_correct|apply idct8_correct|apply idct16_correct|apply idct32_correct|apply idct64_correct]; auto.
    - assert (n = 2 \/ n = 3 \/ n = 4) as [ -> | [ -> | ->]] by lia; cbn [Z.eqb Pos.eqb]; f_equal;
        [apply (iadst4_correct r)|apply iadst8_correct|apply iadst16_correct]; auto.
    - unfold Itx_spec.identity, Itx_model.iidentity4, Itx_model.iidentity8, Itx_model.iidentity16, Itx_model.iidentity32.
      assert (n = 2 \/ n = 3 \/ n = 4 \/ n = 5) as [ -> | [ -> | [ -> | ->]]] by lia; cbn [Z.eqb Pos.eqb]; f_equal; apply map_ext_in; intros x Hx;
        apply (In_nth _ _ 0) in Hx; destruct Hx as [m [_ <-]]; pose proof (nth_bound r v m R I);
        rewrite ?i32_id by lia; rewrite ?shift_eq by lia; first [ring | f_equal; ring]. }
  destruct (flips k) eqn:F.
  - destruct k; try discriminate F. specialize (G Itx_model.ADST eq_refl eq_refl). cbn [Itx_model.txfm_fn kind_of] in *.
    rewrite G. eexists. split; [reflexivity|]. intros i Hi. unfold Itx_spec.at_.
    rewrite rev_nth; rewrite Len; [|lia]. f_equal. lia.
  - eexists. split; [apply G; auto|]. intros i Hi. reflexivity.
Qed.

(** ** Ranges of up to 20 bits, for values that fit *)
Lemma saturate_id r x : Itx_spec.fits r x = true -> Itx_spec.saturate r x = x.
Proof.
  unfold Itx_spec.fits, Itx_spec.saturate, Itx_spec.Clip3. generalize (2 ^ (r - 1)). intros p F.
  destruct (x <? - p) eqn:A; [lia|]. destruct (p - 1 <? x) eqn:B; lia.
Qed.
Fixpoint conf (r : Z) (v : list Z) (e : ex) : Prop :=
  match e with
  | V _ => True
  | Bf a x b y => Itx_spec.fits r (denS r v (Bf a x b y)) = true /\ conf r v x /\ conf r v y
  | Ad x y => Itx_spec.fits r (denS r v x + denS r v y) = true /\ conf r v x /\ conf r v y
  | Sb x y => Itx_spec.fits r (denS r v x - denS r v y) = true /\ conf r v x /\ conf r v y
  | Ng x => conf r v x
  end.
Lemma conf_eqx r v : forall a b, eqx a b = true -> conf r v b -> conf r v a.
Proof.
  induction a as [k|a x IHx b y IHy|x IHx y IHy|x IHx y IHy|x IHx]; intros b' E C; pose proof (eqx_sound r v _ _ E) as S0;
    destruct b' as [k'|a' x' b'' y'|x' y'|x' y'|x']; cbn [eqx conf] in *; try discriminate; auto.
  - rewrite S0. destruct C as (C & Cx & Cy). split; [exact C|].
    apply orb_true_iff in E; destruct E as [E|E]; repeat (apply andb_true_iff in E; destruct E as [E ?]); split; eauto.
  - destruct C as (C & Cx & Cy). apply orb_true_iff in E; destruct E as [E|E]; apply andb_true_iff in E; destruct E as [E F];
      rewrite (eqx_sound r v _ _ E), (eqx_sound r v _ _ F); [|rewrite Z.add_comm]; (split; [exact C|]); split; eauto.
  - destruct C as (C & Cx & Cy). apply andb_true_iff in E; destruct E as [E F].
    rewrite (eqx_sound r v _ _ E), (eqx_sound r v _ _ F). split; [exact C|]. split; eauto.
  - eauto.
Qed.
Fixpoint tame (e : ex) : bool :=
  match e with
  | V _ => true
  | Bf a x b y => (Z.abs a <=? 4095) && (Z.abs b <=? 4095) && wide x && wide y && tame x && tame y
  | Ad x y | Sb x y => wide x && wide y && tame x && tame y
  | Ng x => wide x && tame x
  end.
Fixpoint same' (l m : list ex) : bool :=
  match l, m with [], [] => true | x :: l, y :: m => tame x && eqx x y && same' l m | _, _ => false end.
Lemma fits_bound r x : 1 <= r <= 20 -> Itx_spec.fits r x = true -> - 2 ^ 19 <= x < 2 ^ 19.
Proof.
  intros R F. unfold Itx_spec.fits in F. assert (2 ^ (r - 1) <= 2 ^ 19) by (apply Z.pow_le_mono_r; lia).
  generalize dependent (2 ^ (r - 1)). intros; lia.
Qed.
Lemma i32_add x y : Itx_model.i32 (Itx_model.i32 x + y) = Itx_model.i32 (x + y).
Proof.
  unfold Itx_model.i32. f_equal.
  replace ((x + 2 ^ 31) mod 2 ^ 32 - 2 ^ 31 + y + 2 ^ 31) with ((x + 2 ^ 31) mod 2 ^ 32 + y) by ring.
  rewrite Zplus_mod_idemp_l. f_equal. ring.
Qed.
Lemma i32_round x : - 2 ^ 19 <= Itx_spec.Round2 x 12 < 2 ^ 19 -> Z.shiftr (Itx_model.i32 (x + Z.shiftl 1 (12 - 1))) 12 = Itx_spec.Round2 x 12.
Proof.
  rewrite round2_12. change (Z.shiftl 1 (12 - 1)) with 2048. intros B.
  rewrite i32_id by dlia. rewrite Z.shiftr_div_pow2 by lia. reflexivity.
Qed.
Lemma btf_fits a x b y : - 2 ^ 19 <= Itx_spec.Round2 (a * x + b * y) 12 < 2 ^ 19 -> Itx_model.half_btf a x b y = Itx_spec.Round2 (a * x + b * y) 12.
Proof.
  intros B. unfold Itx_model.half_btf. rewrite <- (i32_round _ B). cbv zeta. f_equal.
  rewrite i32_add. rewrite <- Z.add_assoc, i32_add.
  rewrite (Z.add_comm (Itx_model.i32 (b * y))), Z.add_assoc, (Z.add_comm _ (Itx_model.i32 (b * y))), i32_add. f_equal. ring.
Qed.
Section Fits.
Variables (r : Z) (v : list Z).
Hypothesis R : 1 <= r <= 20.
Hypothesis I : inputs r v.
Lemma env_fits k : Itx_spec.fits r (env v k) = true.
Proof.
  assert (1 <= 2 ^ (r - 1)) by (apply (Z.pow_le_mono_r 2 0); lia).
  unfold env, Itx_spec.fits. destruct (k <? 0); [lia|]. destruct (nth_in_or_default (Z.to_nat k) v 0) as [N|N]; [|rewrite N; lia].
  unfold inputs in I. rewrite Forall_forall in I. apply I in N. lia.
Qed.
Lemma conf_sound : forall e, tame e = true -> conf r v e -> denM r v e = denS r v e /\ (wide e = true -> Itx_spec.fits r (denS r v e) = true).
Proof.
  induction e as [k|a x IHx b y IHy|x IHx y IHy|x IHx y IHy|x IHx]; intros E C; cbn [tame conf wide denM] in *;
    repeat (apply andb_true_iff in E; destruct E as [E ?]).
  - split; [reflexivity|]. intros _. apply env_fits.
  - destruct C as (C & Cx & Cy). destruct IHx as [-> _]; auto. destruct IHy as [-> _]; auto.
    pose proof (fits_bound r _ R C) as B. cbn [denS] in *. split; [apply btf_fits, B|auto].
  - destruct C as (C & Cx & Cy). destruct IHx as [-> _]; auto. destruct IHy as [-> _]; auto.
    pose proof (fits_bound r _ R C) as B. cbn [denS]. rewrite clamp_saturate, i32_id by lia. split; [reflexivity|].
    intros _. rewrite (saturate_id _ _ C). exact C.
  - destruct C as (C & Cx & Cy). destruct IHx as [-> _]; auto. destruct IHy as [-> _]; auto.
    pose proof (fits_bound r _ R C) as B. cbn [denS]. rewrite clamp_saturate, i32_id by lia. split; [reflexivity|].
    intros _. rewrite (saturate_id _ _ C). exact C.
  - destruct (IHx ltac:(assumption) C) as [-> W]. pose proof (fits_bound r _ R (W E)) as B. cbn [denS]. rewrite i32_id by lia.
    split; [reflexivity|discriminate].
Qed.
Lemma same'_sound : forall l m, same' l m = true -> Forall (conf r v) m -> map (denM r v) l = map (denS r v) m.
Proof.
  induction l as [|x l IH]; intros [|y m] E C; cbn [same' map] in *; try discriminate; [reflexivity|].
  apply andb_true_iff in E; destruct E as [E F]. apply andb_true_iff in E; destruct E as [E G]. inversion C as [|? ? Cy Cm]; subst.
  f_equal; [|auto]. rewrite <- (eqx_sound r v _ _ G). apply conf_sound; [exact E|]. apply (conf_eqx r v _ _ G Cy).
Qed.
Lemma conf_at l i : Forall (conf r v) l -> conf r v (Itx_spec.at_ (V (-1)) l i).
Proof.
  intros C. unfold Itx_spec.at_. destruct (nth_in_or_default (Z.to_nat i) l (V (-1))) as [N|N]; [|rewrite N; exact Logic.I].
  rewrite Forall_forall in C. auto.
Qed.
Lemma conf_put x : conf r v x -> forall l i, Forall (conf r v) l -> Forall (conf r v) (Itx_spec.put l i x).
Proof.
  intros X. induction l as [|y l IH]; intros [|i] C; cbn [Itx_spec.put]; auto; inversion C; subst; constructor; auto.
Qed.
Lemma conf_set x l i : conf r v x -> Forall (conf r v) l -> Forall (conf r v) (Itx_spec.set_ l i x).
Proof. intros X L. apply conf_put; assumption. Qed.
Lemma exact_step_eq T k U : Itx_spec.exact_step r T k = Some U ->
  Itx_spec.step 0 Itx_spec.rotation (fun x y => Itx_spec.saturate r (x + y)) (fun x y => Itx_spec.saturate r (x - y)) Z.opp T k = U.
Proof.
  intros Ew. unfold Itx_spec.exact_step in Ew. destruct k as [a b g f|a b f|f|f]; try (injection Ew as <-; reflexivity).
  cbn [Itx_spec.step] in *. destruct f; match type of Ew with (if ?c then _ else _) = _ => destruct c eqn:C; [|discriminate] end;
    apply andb_true_iff in C; destruct C as [C D]; injection Ew as <-; rewrite (saturate_id _ _ C), (saturate_id _ _ D); reflexivity.
Qed.
Lemma strict_conf l k U : Forall (conf r v) l -> Itx_spec.strict_step r (map (denS r v) l) k = Some U ->
  Forall (conf r v) (Itx_spec.step (V (-1)) tree_rot Ad Sb Ng l k) /\ U = map (denS r v) (Itx_spec.step (V (-1)) tree_rot Ad Sb Ng l k).
Proof.
  intros L E. assert (Itx_spec.exact_step r (map (denS r v) l) k = Some U) as Ex.
  { unfold Itx_spec.strict_step in E. destruct k; auto. destruct (Itx_spec.rotation _ _ _). destruct (_ && _); [exact E|discriminate]. }
  split; [|rewrite <- step_hom; symmetry; apply exact_step_eq, Ex].
  destruct k as [a b g f|a b f|f|f]; cbn [Itx_spec.step].
  - cbn [Itx_spec.strict_step] in E. rewrite !at_hom, rot_hom in E.
    pose proof (conf_at l a L) as Ca. pose proof (conf_at l b L) as Cb.
    destruct (Itx_spec.fits r (denS r v (fst _)) && _) eqn:F in E; [|discriminate]. apply andb_true_iff in F; destruct F as [F G].
    unfold tree_rot in *. cbn [fst snd] in *.
    assert (conf r v (Bf (Itx_spec.cos128 g) (Itx_spec.at_ (V (-1)) l a) (- Itx_spec.sin128 g) (Itx_spec.at_ (V (-1)) l b))) as C1 by (split; auto).
    assert (conf r v (Bf (Itx_spec.sin128 g) (Itx_spec.at_ (V (-1)) l a) (Itx_spec.cos128 g) (Itx_spec.at_ (V (-1)) l b))) as C2 by (split; auto).
    destruct f; repeat apply conf_set; assumption.
  - unfold Itx_spec.exact_step in Ex. destruct f;
    match type of Ex with (if ?c then _ else _) = _ => destruct c eqn:C; [|discriminate] end;
    apply andb_true_iff in C; destruct C as [C D]; rewrite !at_hom in C, D;
    (repeat apply conf_set; [ | |exact L]); (split; [assumption|split; apply conf_at, L]).
  - apply Forall_forall. intros x X. apply in_map_iff in X. destruct X as [i [<- _]]. apply conf_at, L.
  - clear E Ex. revert l L. induction f as [|i f IH]; intros l L; [exact L|]. cbn [fold_left]. apply IH. apply conf_set; [|exact L]. apply conf_at, L.
Qed.
Lemma strict_run p : forall l, Forall (conf r v) l -> Itx_spec.strict r p (map (denS r v) l) = true -> Forall (conf r v) (tree_run p l).
Proof.
  unfold tree_run, Itx_spec.run. induction p as [|k p IH]; intros l L E; [exact L|]. cbn [Itx_spec.strict fold_left] in *.
  destruct (Itx_spec.strict_step r _ k) as [U|] eqn:St; [|discriminate]. destruct (strict_conf l k U L St) as [C ->].
  apply IH; assumption.
Qed.
Lemma agree' n f p : length v = Z.to_nat n ->
  (forall l, f (map (denM r v) l) = map (denM r v) (p l)) ->
  forall q, same' (p (vars n)) (tree_run q (vars n)) = true -> Itx_spec.strict r q v = true -> f v = Itx_spec.process r q v.
Proof.
  intros L Hf q E St. rewrite <- (vars_map v (denM r v) n) at 1 by (auto; reflexivity). rewrite Hf.
  rewrite (same'_sound _ _ E), <- run_hom.
  - f_equal. apply vars_map; auto.
  - apply strict_run; [|rewrite (vars_map v (denS r v) n) by auto; exact St].
    apply Forall_forall. intros x X. unfold vars in X. apply in_map_iff in X. destruct X as [k [<- _]]. exact Logic.I.
Qed.
Lemma iadst4_fits : Itx_spec.adst4_fits r v = true -> Itx_model.iadst4 v = Itx_spec.adst4 v.
Proof.
  intros F. assert (forall k, - 2 ^ 19 <= nth k v 0 < 2 ^ 19) as Nb.
  { intros k. pose proof (env_fits (Z.of_nat k)) as B. apply (fits_bound r) in B; [|exact R]. unfold env in B. rewrite Nat2Z.id in B.
    replace (Z.of_nat k <? 0) with false in B by lia. exact B. }
  assert (forall x, Itx_spec.fits (r + 12) x = true -> - 2 ^ 31 <= x < 2 ^ 31) as Fb.
  { intros x. unfold Itx_spec.fits. assert (2 ^ (r + 12 - 1) <= 2 ^ 31) by (apply Z.pow_le_mono_r; lia).
    generalize dependent (2 ^ (r + 12 - 1)). intros; lia. }
  unfold Itx_spec.adst4_fits, Itx_spec.at_ in F. cbv zeta in F. cbn [forallb] in F.
  repeat match type of F with _ && _ = true => apply andb_true_iff in F; let G := fresh "G" in destruct F as [G F]; apply Fb in G end.
  unfold Itx_model.iadst4, Itx_spec.adst4, Itx_spec.at_.
  unfold Itx_spec.SINPI_1_9, Itx_spec.SINPI_2_9, Itx_spec.SINPI_3_9, Itx_spec.SINPI_4_9 in *. cbv zeta.
  pose proof (Nb (Z.to_nat 0)). pose proof (Nb (Z.to_nat 1)). pose proof (Nb (Z.to_nat 2)). pose proof (Nb (Z.to_nat 3)). clear Nb Fb R I F.
  generalize dependent (nth (Z.to_nat 0) v 0). generalize dependent (nth (Z.to_nat 1) v 0).
  generalize dependent (nth (Z.to_nat 2) v 0). generalize dependent (nth (Z.to_nat 3) v 0). intros x3 x2 x1 x0. intros.
  repeat match goal with |- context [Itx_model.i32 ?e] =>
    lazymatch e with context [Itx_model.i32 _] => fail | _ => rewrite (i32_id e) by lia end end.
  rewrite !shift_eq by lia. repeat f_equal; ring.
Qed.
Lemma identity_fits n : allowed Itx_spec.Ident n = true -> forallb (Itx_spec.fits r) (Itx_spec.identity n v) = true ->
  Itx_model.txfm_fn Itx_model.IDTX n r v = Some (Itx_spec.identity n v).
Proof.
  intros A F. rewrite forallb_forall in F. cbn [allowed Itx_model.txfm_fn] in *.
  assert (forall x, In x v -> - 2 ^ 19 <= (if n =? 2 then Itx_spec.Round2 (x * 5793) 12 else if n =? 3 then x * 2 else if n =? 4 then Itx_spec.Round2 (x * 11586) 12 else x * 4) < 2 ^ 19) as G.
  { intros x Hx. apply (fits_bound r); [exact R|]. apply F. unfold Itx_spec.identity. apply in_map_iff. exists x. split; [reflexivity|exact Hx]. }
  clear F. unfold Itx_spec.identity, Itx_model.iidentity4, Itx_model.iidentity8, Itx_model.iidentity16, Itx_model.iidentity32.
  assert (n = 2 \/ n = 3 \/ n = 4 \/ n = 5) as [ -> | [ -> | [ -> | ->]]] by lia; cbn [Z.eqb Pos.eqb] in *; f_equal; apply map_ext_in; intros x Hx; specialize (G x Hx); try ring.
  - rewrite round2_12 in G. rewrite i32_id by dlia. rewrite shift_eq by lia. f_equal. ring.
  - rewrite round2_12 in G. rewrite i32_id by dlia. rewrite shift_eq by lia. f_equal. ring.
Qed.
End Fits.
Theorem txfm_conforms k n r v : 1 <= r <= 20 -> inputs r v -> allowed (kind_of k) n = true -> length v = Z.to_nat (2 ^ n) ->
  Itx_spec.conforms (kind_of k) n r v = true ->
  exists l, Itx_model.txfm_fn k n r v = Some l /\ forall i, 0 <= i < 2 ^ n ->
    nth (Z.to_nat i) l 0 = Itx_spec.at_ 0 (Itx_spec.transform (kind_of k) n r v) (if flips k then 2 ^ n - 1 - i else i).
Proof.
  intros R I A L Cf. pose proof (transform_len _ n r v A L) as Len.
  assert (forall k', kind_of k' = kind_of k -> flips k' = false -> Itx_model.txfm_fn k' n r v = Some (Itx_spec.transform (kind_of k') n r v)) as G.
  { intros k' E F. rewrite <- E in A, Cf. clear E Len. destruct k'; cbn [kind_of Itx_spec.transform Itx_spec.conforms flips] in *; try discriminate.
    - cbn [Itx_model.txfm_fn allowed] in *. assert (n = 2 \/ n = 3 \/ n = 4 \/ n = 5 \/ n = 6) as [ -> | [ -> | [ -> | [ -> | ->]]]] by lia; cbn [Z.eqb Pos.eqb]; f_equal.
      + apply (agree' r v R I 4 _ _ L (idct4_hom r v)); [vm_compute; reflexivity|exact Cf].
      + apply (agree' r v R I 8 _ _ L (idct8_hom r v)); [vm_compute; reflexivity|exact Cf].
      + apply (agree' r v R I 16 _ _ L (idct16_hom r v)); [vm_compute; reflexivity|exact Cf].
      + apply (agree' r v R I 32 _ _ L (stages_hom r v _)); [vm_compute; reflexivity|exact Cf].
      + apply (agree' r v R I 64 _ _ L (stages_hom r v _)); [vm_compute; reflexivity|exact Cf].
    - cbn [Itx_model.txfm_fn allowed] in *. assert (n = 2 \/ n = 3 \/ n = 4) as [ -> | [ -> | ->]] by lia; cbn [Z.eqb Pos.eqb] in *; f_equal.
      + apply (iadst4_fits r v R I Cf).
      + apply (agree' r v R I 8 _ _ L (stages_hom r v _)); [vm_compute; reflexivity|exact Cf].
      + apply (agree' r v R I 16 _ _ L (stages_hom r v _)); [vm_compute; reflexivity|exact Cf].
    - apply identity_fits; assumption. }
  destruct (flips k) eqn:F.
  - destruct k; try discriminate F. specialize (G Itx_model.ADST eq_refl eq_refl). cbn [Itx_model.txfm_fn kind_of] in *.
    rewrite G. eexists. split; [reflexivity|]. intros i Hi. unfold Itx_spec.at_.
    rewrite rev_nth; rewrite Len; [|lia]. f_equal. lia.
  - eexists. split; [apply G; auto|]. intros i Hi. reflexivity.
Qed.

(** ** Two dimensions *)
Lemma collect_some {X} (f : X -> option Z) g l : (forall x, In x l -> f x = Some (g x)) -> Itx_model.collect (map f l) = Some (map g l).
Proof.
  induction l as [|x l IH]; intros E; [reflexivity|]. cbn [map Itx_model.collect]. rewrite (E x) by (left; reflexivity).
  cbn [Itx_model.obind]. rewrite IH by (intros; apply E; right; assumption). reflexivity.
Qed.
Lemma upto_in n x : In x (Itx_spec.upto n) -> 0 <= x < n.
Proof. unfold Itx_spec.upto. rewrite in_map_iff. intros [k [<- E]]. apply in_seq in E. lia. Qed.
Lemma upto_len n : length (Itx_spec.upto n) = Z.to_nat n.
Proof. unfold Itx_spec.upto. rewrite map_length, seq_length. reflexivity. Qed.
Lemma saturate_fits r x : 1 <= r -> - 2 ^ (r - 1) <= Itx_spec.saturate r x <= 2 ^ (r - 1) - 1.
Proof.
  intros R. assert (1 <= 2 ^ (r - 1)) as P by (apply (Z.pow_le_mono_r 2 0); lia).
  unfold Itx_spec.saturate, Itx_spec.Clip3. generalize dependent (2 ^ (r - 1)). intros p P.
  destruct (x <? - p) eqn:E; [lia|]. destruct (p - 1 <? x) eqn:F; lia.
Qed.
Lemma saturate_map r (f : Z -> Z) l : 1 <= r -> inputs r (map (fun x => Itx_spec.saturate r (f x)) l).
Proof. intros R. apply Forall_forall. intros x E. apply in_map_iff in E. destruct E as [y [<- _]]. apply saturate_fits, R. Qed.

Section Two.
Variables (input : Z -> Z) (sz bd : Z) (ty : Itx_spec.tx_type) (row col : Itx_model.tx_1d).
Let lw := nth (Z.to_nat sz) Itx_model.width_log2s 0.
Let lh := nth (Z.to_nat sz) Itx_model.height_log2s 0.
Let sh := nth (Z.to_nat sz) Itx_model.INV_INTERMEDIATE_SHIFTS 0.
Hypothesis Hbd : bd = 8 \/ bd = 10 \/ bd = 12.
Hypothesis Hrow : kind_of row = Itx_spec.row_kind ty /\ flips row = Itx_spec.flipLR ty.
Hypothesis Hcol : kind_of col = Itx_spec.col_kind ty /\ flips col = Itx_spec.flipUD ty.
Hypothesis Arow : allowed (Itx_spec.row_kind ty) lw = true.
Hypothesis Acol : allowed (Itx_spec.col_kind ty) lh = true.
Hypothesis Hsh : 0 <= sh.
Let Dequant (i j : Z) : Z := input (i + j * Z.min (2 ^ lh) 32).
Hypothesis Hin : forall i j, 0 <= i < Z.min (2 ^ lh) 32 -> 0 <= j < Z.min (2 ^ lw) 32 -> - 2 ^ 19 <= Dequant i j < 2 ^ 19.
Hypothesis Hconf : forall i, bd = 12 -> 0 <= i < Z.min (2 ^ lh) 32 -> Itx_spec.conforms (Itx_spec.row_kind ty) lw 20 (Itx_spec.row_in bd sz Dequant i) = true.
Lemma lw_range : 2 <= lw <= 6. Proof. destruct (Itx_spec.row_kind ty); cbn [allowed] in Arow; lia. Qed.
Lemma lh_range : 2 <= lh <= 6. Proof. destruct (Itx_spec.col_kind ty); cbn [allowed] in Acol; lia. Qed.
Lemma width_eq : Itx_model.width lw = 2 ^ lw. Proof. pose proof lw_range. unfold Itx_model.width. rewrite Z.shiftl_mul_pow2; lia. Qed.
Lemma height_eq : Itx_model.height lh = 2 ^ lh. Proof. pose proof lh_range. unfold Itx_model.height. rewrite Z.shiftl_mul_pow2; lia. Qed.
Lemma sat0 r : 1 <= r -> Itx_spec.saturate r 0 = 0.
Proof.
  intros R. assert (1 <= 2 ^ (r - 1)) as P by (apply (Z.pow_le_mono_r 2 0); lia).
  unfold Itx_spec.saturate, Itx_spec.Clip3. destruct (0 <? _) eqn:E; [lia|]. destruct (_ <? 0) eqn:F; lia.
Qed.
Lemma row_in_eq i : 0 <= i < Z.min (2 ^ lh) 32 -> Itx_model.temp_in input lw lh bd i = Itx_spec.row_in bd sz Dequant i.
Proof.
  intros Hi. unfold Itx_model.temp_in, Itx_spec.row_in. rewrite width_eq, height_eq.
  change (Itx_spec.tab Itx_spec.Tx_Width_Log2 sz) with lw. change (Itx_spec.tab Itx_spec.Tx_Height_Log2 sz) with lh.
  change (Itx_model.range_list (2 ^ lw)) with (Itx_spec.upto (2 ^ lw)).
  apply map_ext_in. intros j Hj. apply upto_in in Hj. replace (i <? 32) with true by lia. cbn [andb].
  destruct (j <? 32) eqn:E.
  - replace (j <? Z.min (2 ^ lw) 32) with true by lia. rewrite clamp_saturate. unfold Itx_model.row_val.
    change (input (i + j * Z.min (2 ^ lh) 32)) with (Dequant i j).
    assert (- 2 ^ 19 <= Dequant i j < 2 ^ 19) as D by (apply Hin; lia).
    destruct (Z.abs (lw - lh) =? 1); [|reflexivity]. rewrite i32_id by lia. rewrite shift_eq by lia. reflexivity.
  - replace (j <? Z.min (2 ^ lw) 32) with false by lia. symmetry.
    destruct (Z.abs (lw - lh) =? 1); apply sat0; lia.
Qed.
Lemma row_in_zero i : 32 <= i -> Itx_spec.row_in bd sz Dequant i = repeat 0 (Z.to_nat (2 ^ lw)).
Proof.
  intros Hi. unfold Itx_spec.row_in. change (Itx_spec.tab Itx_spec.Tx_Width_Log2 sz) with lw.
  rewrite <- upto_len. induction (Itx_spec.upto (2 ^ lw)) as [|j l IH]; [reflexivity|]. cbn [map length repeat]. f_equal; [|exact IH].
  replace (i <? 32) with false by lia. cbn [andb]. destruct (_ =? 1); apply sat0; lia.
Qed.
Lemma buffer_eq i c : 0 <= i < 2 ^ lh -> 0 <= c < 2 ^ lw -> Itx_model.obind (Itx_model.buffer input lw lh (col, row) bd i c)
   (fun b => Some (Itx_model.clamp_value (Itx_model.round_shift b sh) (Z.max (bd + 6) 16)))
   = Some (Itx_spec.after_rows bd sz ty Dequant i (if Itx_spec.flipLR ty then 2 ^ lw - 1 - c else c)).
Proof.
  intros Hi Hc. unfold Itx_model.buffer. rewrite height_eq. cbn [snd].
  unfold Itx_spec.after_rows. change (Itx_spec.tab Itx_spec.Tx_Width_Log2 sz) with lw. change (Itx_spec.tab Itx_spec.Transform_Row_Shift sz) with sh.
  destruct (i <? Z.min (2 ^ lh) 32) eqn:E.
  - rewrite row_in_eq by lia. destruct Hrow as [Kr Fr].
    assert (inputs (bd + 8) (Itx_spec.row_in bd sz Dequant i)) as In1 by (unfold Itx_spec.row_in; apply (saturate_map (bd + 8) (fun j => _)); lia).
    assert (allowed (kind_of row) lw = true) as Al by (rewrite Kr; exact Arow).
    assert (length (Itx_spec.row_in bd sz Dequant i) = Z.to_nat (2 ^ lw)) as Le by (unfold Itx_spec.row_in; rewrite map_length; apply upto_len).
    assert (exists l, Itx_model.txfm_fn row lw (bd + 8) (Itx_spec.row_in bd sz Dequant i) = Some l /\ forall i0, 0 <= i0 < 2 ^ lw ->
      nth (Z.to_nat i0) l 0 = Itx_spec.at_ 0 (Itx_spec.transform (kind_of row) lw (bd + 8) (Itx_spec.row_in bd sz Dequant i)) (if flips row then 2 ^ lw - 1 - i0 else i0))
      as [l [-> Hl]].
    { destruct (Z.eq_dec bd 12) as [B|B].
      - apply txfm_conforms; auto; [lia|]. rewrite Kr. replace (bd + 8) with 20 by lia. apply Hconf; [exact B|lia].
      - apply txfm_correct; auto; lia. }
    cbn [Itx_model.obind]. rewrite (Hl c Hc), Kr, Fr, clamp_saturate, shift_eq by exact Hsh. reflexivity.
  - cbn [Itx_model.obind]. rewrite row_in_zero by lia. rewrite transform_zero by lia. rewrite clamp_saturate, shift_eq by exact Hsh. reflexivity.
Qed.
Theorem two_correct p y x : 0 <= y < 2 ^ lh -> 0 <= x < 2 ^ lw ->
  Itx_model.inverse_transform_add input lw lh (col, row) sh bd p y x = Some (Itx_spec.reconstruct bd sz ty Dequant p y x).
Proof.
  intros Hy Hx. unfold Itx_model.inverse_transform_add. rewrite height_eq.
  rewrite (collect_some _ (fun i => Itx_spec.after_rows bd sz ty Dequant i (if Itx_spec.flipLR ty then 2 ^ lw - 1 - x else x))).
  2: { intros i Hi. change (Itx_model.range_list (2 ^ lh)) with (Itx_spec.upto (2 ^ lh)) in Hi. apply upto_in in Hi. apply buffer_eq; assumption. }
  cbn [Itx_model.obind fst]. destruct Hcol as [Kc Fc].
  change (Itx_model.range_list (2 ^ lh)) with (Itx_spec.upto (2 ^ lh)).
  edestruct (txfm_correct col lh (Z.max (bd + 6) 16)) as [l [-> Hl]].
  - lia.
  - apply saturate_map. lia.
  - rewrite Kc. exact Acol.
  - rewrite map_length. apply upto_len.
  - cbn [Itx_model.obind]. rewrite (Hl y Hy), Kc, Fc, shift_eq by lia. rewrite Z.shiftl_mul_pow2, Z.mul_1_l by lia. reflexivity.
Qed.
End Two.
