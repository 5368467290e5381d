(** A flat plane is unchanged by the loop filter of the specification. *)
From Verif Require Import Base.
From Verif Require Deblock_spec.
Open Scope Z_scope.

Lemma line_flat pl fs bd level s v : 8 <= bd -> 1 <= level -> 0 <= v < 2 ^ bd ->
  (forall i, s i = v) -> forall i, Deblock_spec.line pl fs bd level s i = v.
Proof.
  intros B L V E i. unfold Deblock_spec.line. destruct (negb _); [apply E|].
  assert (PB : 2 ^ bd = 2 * (128 * 2 ^ (bd - 8))).
  { replace bd with (8 + (bd - 8)) at 1 by lia. rewrite Z.pow_add_r by lia. change (2 ^ 8) with 256. lia. }
  assert (PB1 : 2 ^ (bd - 1) = 128 * 2 ^ (bd - 8)).
  { replace (bd - 1) with (7 + (bd - 8)) by lia. rewrite Z.pow_add_r by lia. reflexivity. }
  assert (PK : 0 < 2 ^ (bd - 8)) by (apply Z.pow_pos_nonneg; lia).
  assert (NAR : Deblock_spec.narrow bd level s i = v).
  { unfold Deblock_spec.narrow, Deblock_spec.p, Deblock_spec.q, Deblock_spec.hevMask, Deblock_spec.p, Deblock_spec.q. rewrite !E. cbv zeta.
    replace (v - v) with 0 by lia. change (Z.abs 0) with 0.
    assert (T : (Deblock_spec.shl bd (Deblock_spec.thresh level) <? 0) = false).
    { apply Z.ltb_ge. unfold Deblock_spec.shl, Deblock_spec.thresh. apply Z.mul_nonneg_nonneg; [apply Z.div_pos; lia|lia]. }
    rewrite T. cbn [orb]. unfold Deblock_spec.shl, Deblock_spec.filter4_clamp, Deblock_spec.Clip3, Deblock_spec.Round2. rewrite PB1.
    set (K := 2 ^ (bd - 8)) in *. clearbody K.
    replace (v - 128 * K - (v - 128 * K)) with 0 by lia.
    change (0 + 3 * 0) with 0.
    replace (0 <? - (128 * K)) with false by (symmetry; apply Z.ltb_ge; lia).
    replace (128 * K - 1 <? 0) with false by (symmetry; apply Z.ltb_ge; lia).
    change (0 + 4) with 4. change (0 + 3) with 3.
    replace (4 <? - (128 * K)) with false by (symmetry; apply Z.ltb_ge; lia).
    replace (128 * K - 1 <? 4) with false by (symmetry; apply Z.ltb_ge; lia).
    replace (3 <? - (128 * K)) with false by (symmetry; apply Z.ltb_ge; lia).
    replace (128 * K - 1 <? 3) with false by (symmetry; apply Z.ltb_ge; lia).
    change (4 / 2 ^ 3) with 0. change (3 / 2 ^ 3) with 0. change ((0 + 2 ^ 1 / 2) / 2 ^ 1) with 0.
    rewrite !Z.sub_0_r, !Z.add_0_r.
    replace (v - 128 * K <? - (128 * K)) with false by (symmetry; apply Z.ltb_ge; lia).
    replace (128 * K - 1 <? v - 128 * K) with false by (symmetry; apply Z.ltb_ge; lia).
    repeat match goal with |- context [if ?b then _ else _] => destruct b end; lia. }
  assert (WIDE : forall w, w = 3 \/ w = 4 -> Deblock_spec.wide pl s w i = v).
  { intros w W. unfold Deblock_spec.wide, Deblock_spec.Round2. cbv zeta.
    destruct (_ && (i <? _)); [|apply E].
    destruct W as [-> | ->]; cbn [Z.eqb Pos.eqb andb]; [destruct (pl =? 0)|];
      match goal with |- context [seq 0 (Z.to_nat ?n)] =>
        let l := eval vm_compute in (seq 0 (Z.to_nat n)) in change (seq 0 (Z.to_nat n)) with l end;
      cbn [map fold_left]; rewrite !E;
      repeat match goal with |- context [if ?b then 2 else 1] => let k := eval vm_compute in (if b then 2 else 1) in change (if b then 2 else 1) with k end;
      change (2 ^ 3) with 8; change (2 ^ 4) with 16; change (8 / 2) with 4; change (16 / 2) with 8;
      dlia. }
  destruct (_ || negb _); [exact NAR|]. destruct (_ || negb _); apply WIDE; auto.
Qed.

Section Frame.
Variables (h : Deblock_spec.lf_params) (info : Z -> Z -> Deblock_spec.unit_info) (plane bd subX subY W H v : Z).
Hypothesis (B : 8 <= bd) (V : 0 <= v < 2 ^ bd).
Definition flat (s : Z -> Z -> Z) : Prop := forall r c, s r c = v.
Lemma edge_flat pass row col s : flat s -> flat (Deblock_spec.edge_filter h info plane bd subX subY W H pass row col s).
Proof.
  intros F r c. unfold Deblock_spec.edge_filter. cbv zeta.
  destruct (_ && (0 <? _)) eqn:E; [|apply F]. apply andb_true_iff in E as [_ E]. apply Z.ltb_lt in E.
  destruct (pass =? 0); (destruct (_ && _); [|apply F]); apply line_flat; try assumption; try lia; intros i; apply F.
Qed.
Lemma fold_flat_inv {A} (f : A -> (Z -> Z -> Z) -> Z -> Z -> Z) l : (forall a s, flat s -> flat (f a s)) ->
  forall s, flat s -> flat (fold_left (fun s a => f a s) l s).
Proof. intros P. induction l as [|a l IH]; intros s F; cbn [fold_left]; [exact F|]. apply IH, P, F. Qed.
Lemma loop_filter_flat MiRows MiCols s : flat s -> flat (Deblock_spec.loop_filter h info plane bd subX subY W H MiRows MiCols s).
Proof.
  intros F. unfold Deblock_spec.loop_filter. destruct (_ || _); [|exact F].
  assert (P : forall pass s, flat s -> flat (Deblock_spec.pass_filter h info plane bd subX subY W H MiRows MiCols pass s)).
  { intros pass s0 F0. unfold Deblock_spec.pass_filter.
    apply (fold_flat_inv (fun row s => fold_left (fun s col => Deblock_spec.edge_filter h info plane bd subX subY W H pass row col s) (Deblock_spec.cells MiCols (2 ^ Deblock_spec.sx plane subX)) s)); [|exact F0].
    intros row s1 F1. apply (fold_flat_inv (fun col s => Deblock_spec.edge_filter h info plane bd subX subY W H pass row col s)); [|exact F1].
    intros col s2 F2. apply edge_flat, F2. }
  apply P, P, F.
Qed.
End Frame.
