(** C61: whether a block is inter, and its reference frames, are read back. *)
From Verif Require Import Sym Rfs_model.
From Verif Require Rfs_spec.
Open Scope string_scope.
Open Scope Z_scope.
Open Scope list_scope.

(** What a block of rav1e may hold: intra, one reference, or a forward and a backward one. *)
Definition blk_ok (b : blk) : Prop :=
  (is_inter b = false /\ rf0 b = 0 /\ rf1 b = 8) \/
  (is_inter b = true /\ 1 <= rf0 b <= 7 /\ rf1 b = 8) \/
  (is_inter b = true /\ 1 <= rf0 b <= 4 /\ 5 <= rf1 b <= 7).
(** the same references in the specification's numbers *)
Definition refs (b : blk) : Z * Z := (rf0 b, if rf1 b =? 8 then -1 else rf1 b).

Definition all_blk : list blk :=
  mkB false 0 8 :: map (fun r => mkB true r 8) [1; 2; 3; 4; 5; 6; 7] ++
  flat_map (fun r => map (mkB true r) [5; 6; 7]) [1; 2; 3; 4].
Lemma all_blk_ok b : blk_ok b -> In b all_blk.
Proof.
  destruct b as [i r q]. unfold blk_ok; cbn [is_inter rf0 rf1].
  intros [(-> & -> & ->) | [(-> & R & ->) | (-> & R & Q)]].
  - now left.
  - assert (D : r = 1 \/ r = 2 \/ r = 3 \/ r = 4 \/ r = 5 \/ r = 6 \/ r = 7) by lia.
    destruct D as [-> | [-> | [-> | [-> | [-> | [-> | ->]]]]]]; cbn; tauto.
  - assert (D : r = 1 \/ r = 2 \/ r = 3 \/ r = 4) by lia. assert (E : q = 5 \/ q = 6 \/ q = 7) by lia.
    destruct D as [-> | [-> | [-> | ->]]], E as [-> | [-> | ->]]; cbn; tauto.
Qed.
Definition all_nb : list (option blk) := None :: map Some all_blk.
Definition nb_ok (n : option blk) : Prop := match n with Some b => blk_ok b | None => True end.
Lemma all_nb_ok n : nb_ok n -> In n all_nb.
Proof. destruct n; intros H; [right; apply in_map; now apply all_blk_ok | now left]. Qed.

(** A decoder's surroundings with these neighbours: tile at 0, block at (1, 1), or at the edge *)
Definition grid (ab lf : option blk) (r c : Z) : Z * Z :=
  match (if c <? (if avail lf then 1 else 0) then lf else ab) with Some b => refs b | None => (0, -1) end.
Definition ctxs_m (ab lf : option blk) : list Z :=
  [intra_inter_context ab lf; get_comp_mode_ctx ab lf; get_comp_ref_type_ctx ab lf; get_ref_frame_ctx_b0 ab lf;
   get_pred_ctx_brfarf2_or_arf ab lf; get_pred_ctx_ll2_or_l3gld ab lf; get_pred_ctx_last_or_last2 ab lf;
   get_pred_ctx_last3_or_gold ab lf; get_pred_ctx_brf_or_arf2 ab lf].
Definition ctxs_s (r0 c0 r c : Z) (G : Z -> Z -> Z * Z) : list Z :=
  [Rfs_spec.is_inter_ctx r0 c0 r c G; Rfs_spec.comp_mode_ctx r0 c0 r c G; Rfs_spec.comp_ref_type_ctx r0 c0 r c G;
   Rfs_spec.ctx_p1 r0 c0 r c G; Rfs_spec.ctx_p2 r0 c0 r c G; Rfs_spec.ctx_p3 r0 c0 r c G; Rfs_spec.ctx_p4 r0 c0 r c G;
   Rfs_spec.ctx_p5 r0 c0 r c G; Rfs_spec.ctx_p6 r0 c0 r c G].
(** every context is a function of the availability and the references of the two neighbours *)
Lemma ctxs_dep r0 c0 r c G r0' c0' r' c' G' :
  Rfs_spec.AvailU r0 r = Rfs_spec.AvailU r0' r' -> Rfs_spec.AvailL c0 c = Rfs_spec.AvailL c0' c' ->
  Rfs_spec.AboveRefFrame r0 r c G = Rfs_spec.AboveRefFrame r0' r' c' G' ->
  Rfs_spec.LeftRefFrame c0 r c G = Rfs_spec.LeftRefFrame c0' r' c' G' ->
  ctxs_s r0 c0 r c G = ctxs_s r0' c0' r' c' G'.
Proof.
  intros A B C D. unfold ctxs_s.
  unfold Rfs_spec.is_inter_ctx, Rfs_spec.comp_mode_ctx, Rfs_spec.comp_ref_type_ctx, Rfs_spec.ctx_p1, Rfs_spec.ctx_p2,
    Rfs_spec.ctx_p3, Rfs_spec.ctx_p4, Rfs_spec.ctx_p5, Rfs_spec.ctx_p6, Rfs_spec.count_refs, Rfs_spec.AboveIntra,
    Rfs_spec.LeftIntra, Rfs_spec.AboveSingle, Rfs_spec.LeftSingle.
  rewrite A, B, C, D. reflexivity.
Qed.
Definition pos (n : option blk) : Z := if avail n then 1 else 0.
Definition check_all : bool :=
  forallb (fun ab => forallb (fun lf => zl_eqb (ctxs_m ab lf) (ctxs_s 0 0 (pos ab) (pos lf) (grid ab lf))) all_nb) all_nb.
Lemma check_all_ok : check_all = true.
Proof. vm_compute. reflexivity. Qed.
Lemma zl_eqb_eq a : forall b, zl_eqb a b = true -> a = b.
Proof.
  induction a as [|x a IH]; intros [|y b]; cbn; try discriminate; [reflexivity|].
  intros H. apply andb_prop in H as [H1 H2]. apply Z.eqb_eq in H1. subst. f_equal. now apply IH.
Qed.

Lemma ctxs_ok blocks RefFrames r0 c0 x y : 0 <= x -> 0 <= y ->
  (forall j i, 0 <= j <= y -> 0 <= i <= x -> (j < y \/ i < x) -> RefFrames (r0 + j) (c0 + i) = refs (blocks j i) /\ blk_ok (blocks j i)) ->
  ctxs_m (above_of blocks x y) (left_of blocks x y) = ctxs_s r0 c0 (r0 + y) (c0 + x) RefFrames.
Proof.
  intros Hx Hy G. set (ab := above_of blocks x y). set (lf := left_of blocks x y).
  assert (Ea : nb_ok ab).
  { unfold ab, above_of. destruct (0 <? y) eqn:E; cbn; [|exact I]. apply G; lia. }
  assert (El : nb_ok lf).
  { unfold lf, left_of. destruct (0 <? x) eqn:E; cbn; [|exact I]. apply G; lia. }
  pose proof check_all_ok as K. unfold check_all in K. rewrite forallb_forall in K.
  specialize (K ab (all_nb_ok ab Ea)). cbv beta in K. rewrite forallb_forall in K.
  specialize (K lf (all_nb_ok lf El)). cbv beta in K. apply zl_eqb_eq in K. rewrite K. apply ctxs_dep.
  - unfold Rfs_spec.AvailU, pos, ab, above_of. destruct (0 <? y) eqn:E; cbn; lia.
  - unfold Rfs_spec.AvailL, pos, lf, left_of. destruct (0 <? x) eqn:E; cbn; lia.
  - unfold Rfs_spec.AboveRefFrame, Rfs_spec.AvailU. replace (r0 <=? r0 + y - 1) with (0 <? y) by lia.
    unfold grid, pos, ab, above_of. destruct (0 <? y) eqn:E; [|reflexivity].
    replace (r0 + y - 1) with (r0 + (y - 1)) by lia. rewrite (proj1 (G (y - 1) x ltac:(lia) ltac:(lia) ltac:(lia))).
    cbn [avail]. destruct (avail lf); reflexivity.
  - unfold Rfs_spec.LeftRefFrame, Rfs_spec.AvailL. replace (c0 <=? c0 + x - 1) with (0 <? x) by lia.
    unfold grid, pos, lf, left_of. destruct (0 <? x) eqn:E; [|reflexivity].
    replace (c0 + x - 1) with (c0 + (x - 1)) by lia. rewrite (proj1 (G y (x - 1) ltac:(lia) ltac:(lia) ltac:(lia))).
    reflexivity.
Qed.

Lemma reads_bit t ix b : reads (rsym t ix 2) (bit t ix b) (Z.b2z b).
Proof. apply reads_sym. destruct b; cbn; lia. Qed.
Lemma reads_one {A} (r : reader Z) (k : Z -> reader A) w a b :
  reads r w a -> reads (k a) wnil b -> reads (bind r k) w b.
Proof.
  intros [l1 [E1 H1]] [l2 [E2 H2]]. exists l1. split; [exact E1|]. injection E2 as <-. intros rest.
  unfold bind. rewrite H1. exact (H2 rest).
Qed.

(** For every tile, position and size, every neighbours and every choice of references: no
    assert fails and the decoder reads the references of the block and nothing else. *)
Theorem C61_references select r0 c0 x y w4 h4 blocks RefFrames b :
  0 <= x -> 0 <= y ->
  (forall j i, 0 <= j <= y -> 0 <= i <= x -> (j < y \/ i < x) ->
     RefFrames (r0 + j) (c0 + i) = refs (blocks j i) /\ blk_ok (blocks j i)) ->
  blk_ok b -> (rf1 b <> 8 -> select = true /\ 2 <= w4 /\ 2 <= h4) ->
  reads (Rfs_spec.read_block_refs select r0 c0 (r0 + y) (c0 + x) w4 h4 RefFrames)
    (write_block_refs (above_of blocks x y) (left_of blocks x y) select (Z.min w4 h4) b) (refs b).
Proof.
  intros Hx Hy G Hb Hc. pose proof (ctxs_ok blocks RefFrames r0 c0 x y Hx Hy G) as K.
  unfold ctxs_m, ctxs_s in K. injection K as K1 K2 K3 K4 K5 K6 K7 K8 K9.
  unfold write_block_refs, write_ref_frames, Rfs_spec.read_block_refs, Rfs_spec.read_ref_frames,
    Rfs_spec.comp_ref, Rfs_spec.single_ref.
  rewrite <- K1, <- K2, <- K3, <- K4, <- K5, <- K6, <- K7, <- K8, <- K9. clear K1 K2 K3 K4 K5 K6 K7 K8 K9 G.
  generalize (intra_inter_context (above_of blocks x y) (left_of blocks x y)) (get_comp_mode_ctx (above_of blocks x y) (left_of blocks x y))
    (get_comp_ref_type_ctx (above_of blocks x y) (left_of blocks x y)) (get_ref_frame_ctx_b0 (above_of blocks x y) (left_of blocks x y))
    (get_pred_ctx_brfarf2_or_arf (above_of blocks x y) (left_of blocks x y)) (get_pred_ctx_ll2_or_l3gld (above_of blocks x y) (left_of blocks x y))
    (get_pred_ctx_last_or_last2 (above_of blocks x y) (left_of blocks x y)) (get_pred_ctx_last3_or_gold (above_of blocks x y) (left_of blocks x y))
    (get_pred_ctx_brf_or_arf2 (above_of blocks x y) (left_of blocks x y)).
  intros n1 n2 n3 n4 n5 n6 n7 n8 n9.
  assert (S : rf1 b <> 8 -> (select && (2 <=? Z.min w4 h4))%bool = true).
  { intros N. destruct (Hc N) as (-> & ? & ?). cbn. lia. }
  generalize dependent (select && (2 <=? Z.min w4 h4))%bool. intros sel S. clear Hc.
  pose proof (all_blk_ok b Hb) as I. clear Hb. unfold all_blk in I. cbn in I.
  repeat (destruct I as [<- | I]); try contradiction; cbn [rf1] in S;
  try (rewrite (S ltac:(lia))); clear S; try destruct sel;
  (eexists; split; [reflexivity|]; intros rest; unfold bind; cbn -[rsym];
   repeat (rewrite rsym_ok by lia; cbn -[rsym]); reflexivity).
Qed.

(** A compound block beside a block with the backward reference and below an intra block. *)
Definition nbs (j i : Z) : blk := if j =? 1 then mkB false 0 8 else mkB true 5 8.
Example C61_case :
  match write_block_refs (above_of nbs 2 2) (left_of nbs 2 2) true 4 (mkB true 4 7) with
  | Some l =>
      l = [ESym "IsInter" [1] 2 1; ESym "CompMode" [1] 2 1; ESym "CompRefType" [2] 2 1; ESym "CompRef" [1; 0] 2 1;
           ESym "CompRef" [1; 2] 2 1; ESym "CompBwdRef" [2; 0] 2 1] /\
      Rfs_spec.read_block_refs true 16 16 18 18 4 4 (fun j i => refs (nbs (j - 16) (i - 16))) l = Some ((4, 7), [])
  | None => False
  end.
Proof. vm_compute. split; reflexivity. Qed.
Example C61_case_ok : blk_ok (mkB true 4 7) /\ forall j i, blk_ok (nbs j i).
Proof. split; [|intros j i; unfold nbs; destruct (j =? 1)]; unfold blk_ok; cbn; lia. Qed.

Print Assumptions C61_references.
