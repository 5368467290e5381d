(** From the decoding order inside a superblock to the flags of a decoder: any partition
    tree, any superblock, any frame. *)
From Verif Require Import Base Edge_model Edge_order.
From Verif Require Import Edge_spec.
Local Open Scope Z_scope.

(** ** Lists *)
Lemma app_mid {A} (l1 l2 pre post : list A) b : l1 ++ l2 = pre ++ b :: post ->
  (exists post', l1 = pre ++ b :: post') \/ (exists pre', pre = l1 ++ pre' /\ l2 = pre' ++ b :: post).
Proof.
  revert pre. induction l1 as [|a l1 IH]; intros pre E.
  - right. exists pre. auto.
  - destruct pre as [|p pre]; cbn in E; injection E as -> E.
    + left. exists l1. reflexivity.
    + destruct (IH pre E) as [(q & ->)|(q & -> & Q)].
      * left. exists q. reflexivity.
      * right. exists q. auto.
Qed.
Lemma filter_mid {A} (f : A -> bool) l pre b post : filter f l = pre ++ b :: post ->
  exists l1 l2, l = l1 ++ b :: l2 /\ filter f l1 = pre.
Proof.
  revert pre. induction l as [|a l IH]; intros pre E; [destruct pre; discriminate|]. cbn in E. destruct (f a) eqn:F.
  - destruct pre as [|p pre]; cbn in E; injection E as -> E.
    + exists [], l. auto.
    + destruct (IH pre E) as (l1 & l2 & -> & Q). exists (p :: l1), l2. cbn. rewrite F, Q. auto.
  - destruct (IH pre E) as (l1 & l2 & -> & Q). exists (a :: l1), l2. cbn. rewrite F, Q. auto.
Qed.
Lemma existsb_filter {A} (f g : A -> bool) l : (forall a, g a = true -> f a = true) -> existsb g (filter f l) = existsb g l.
Proof.
  intros H. induction l as [|a l IH]; [reflexivity|]. cbn. destruct (f a) eqn:F; cbn; rewrite IH; [reflexivity|].
  destruct (g a) eqn:G; [rewrite (H a G) in F; discriminate|reflexivity].
Qed.
Lemma existsb_map {A B} (f : A -> B) g l : existsb g (map f l) = existsb (fun a => g (f a)) l.
Proof. induction l as [|a l IH]; [reflexivity|]. cbn. rewrite IH. reflexivity. Qed.
Lemma existsb_ext {A} (f g : A -> bool) l : (forall a, In a l -> f a = g a) -> existsb f l = existsb g l.
Proof. induction l as [|a l IH]; intros H; [reflexivity|]. cbn. rewrite H by (left; auto). rewrite IH; [reflexivity|]. intros. apply H. right. auto. Qed.
Lemma existsb_flat_map {A B} (f : A -> list B) g l : existsb g (flat_map f l) = existsb (fun a => existsb g (f a)) l.
Proof. induction l as [|a l IH]; [reflexivity|]. cbn. rewrite existsb_app, IH. reflexivity. Qed.
Lemma map_mid {A B} (f : A -> B) l pre b post : map f l = pre ++ b :: post ->
  exists l1 a l2, l = l1 ++ a :: l2 /\ map f l1 = pre /\ f a = b.
Proof.
  revert pre. induction l as [|h l IH]; intros pre E; [destruct pre; discriminate|]. destruct pre as [|p pre]; cbn in E; injection E as E1 E.
  - exists [], h, l. auto.
  - destruct (IH pre E) as (l1 & a & l2 & -> & Q & Q'). exists (h :: l1), a, l2. cbn. rewrite Q, E1. auto.
Qed.

(** ** A tree moved by r, c *)
Lemma dp_shift MR MC t r0 c0 : forall r c n,
  decode_partition MR MC t (r0 + r) (c0 + c) n = map (shift_blk r0 c0) (decode_partition (MR - r0) (MC - c0) t r c n).
Proof.
  induction t as [| | |t1 IH1 t2 IH2 t3 IH3 t4 IH4]; intros r c n; cbn [decode_partition];
    replace (MR <=? r0 + r) with (MR - r0 <=? r) by lia; replace (MC <=? c0 + c) with (MC - c0 <=? c) by lia;
    destruct ((MR - r0 <=? r) || (MC - c0 <=? c)); try reflexivity.
  - cbv zeta. replace (r0 + r + n / 2 <? MR) with (r + n / 2 <? MR - r0) by lia. destruct (r + n / 2 <? MR - r0); cbn [map]; unfold shift_blk; cbn [b_row b_col b_h b_w]; rewrite ?Z.add_assoc; reflexivity.
  - cbv zeta. replace (c0 + c + n / 2 <? MC) with (c + n / 2 <? MC - c0) by lia. destruct (c + n / 2 <? MC - c0); cbn [map]; unfold shift_blk; cbn [b_row b_col b_h b_w]; rewrite ?Z.add_assoc; reflexivity.
  - cbv zeta. rewrite !map_app, <- IH1, <- IH2, <- IH3, <- IH4, !Z.add_assoc. reflexivity.
Qed.

(* vertical partitions are not allowed in 4:2:2 *)
Fixpoint tree_ok (sx sy : Z) (t : ptree) : Prop :=
  match t with
  | TVert => ~ (sx = 1 /\ sy = 0)
  | TSplit a b c d => tree_ok sx sy a /\ tree_ok sx sy b /\ tree_ok sx sy c /\ tree_ok sx sy d
  | _ => True
  end.

Section Local.
Variables sx sy FR FC : Z.
Hypothesis S0 : sub_ok sx sy.
Definition in_frame (b : blk) : bool := (b_row b <? FR) && (b_col b <? FC).
Let cells (y x : Z) : Prop := 0 <= y < Z.shiftr 16 sy /\ 0 <= x < Z.shiftr 16 sx /\ y < Z.shiftr FR sy /\ x < Z.shiftr FC sx.
Lemma shiftr_mono a b k : 0 <= k -> a <= b -> Z.shiftr a k <= Z.shiftr b k.
Proof. intros Hk H. rewrite !Z.shiftr_div_pow2 by lia. apply Z.div_le_mono; [apply Z.pow_pos_nonneg; lia|exact H]. Qed.
Lemma covers_in_frame y x b : cells y x -> covers sx sy y x b = true -> in_frame b = true.
Proof.
  intros (_ & _ & A & B) H. unfold covers, in_rect in H. rewrite !andb_true_iff in H. destruct H as (_ & ((H1 & _) & H2) & _).
  apply Z.leb_le in H1, H2. unfold in_frame. apply andb_true_iff. split; apply Z.ltb_lt.
  - destruct (Z_lt_le_dec (b_row b) FR) as [|K]; [auto|]. apply (shiftr_mono _ _ sy) in K; [lia|destruct S0; lia].
  - destruct (Z_lt_le_dec (b_col b) FC) as [|K]; [auto|]. apply (shiftr_mono _ _ sx) in K; [lia|destruct S0; lia].
Qed.
Definition leaf_kind (t : ptree) (n : Z) : option kind :=
  match t with TNone => Some KNone | THorz => Some KHorz | TVert => Some KVert | TSplit _ _ _ _ => if n =? 2 then Some KFour else None end.
Lemma leaf_blocks t n k R C : In n sizes -> wf_tree n t -> leaf_kind t n = Some k ->
  decode_partition FR FC t R C n = filter in_frame (node_blocks k R C n).
Proof.
  intros Hn W L. apply size_pos in Hn. destruct t as [| | |t1 t2 t3 t4]; cbn in L.
  - injection L as <-. unfold node_blocks, part_blocks; cbn [decode_partition map]; unfold shift_blk; cbn [b_row b_col b_h b_w filter]. unfold in_frame. cbn [b_row b_col]. rewrite !Z.add_0_r. destruct (Z.leb_spec FR R), (Z.leb_spec FC C); cbn [orb]; 
      try (replace (R <? FR) with false by lia); try (replace (C <? FC) with false by lia); rewrite ?andb_false_r; try reflexivity.
    replace (R <? FR) with true by lia. replace (C <? FC) with true by lia. reflexivity.
  - injection L as <-. unfold node_blocks, part_blocks; cbn [decode_partition map]; unfold shift_blk; cbn [b_row b_col b_h b_w filter]. unfold in_frame. cbn [b_row b_col]. rewrite !Z.add_0_r.
    assert (0 <= n / 2) by (destruct Hn as [->|[->|[->| ->]]]; cbn; lia).
    destruct (Z.leb_spec FR R), (Z.leb_spec FC C); cbn [orb];
      try (replace (R <? FR) with false by lia; replace (R + n / 2 <? FR) with false by lia; reflexivity);
      try (replace (C <? FC) with false by lia; rewrite !andb_false_r; reflexivity).
    replace (R <? FR) with true by lia. replace (C <? FC) with true by lia. cbn [andb]. rewrite andb_true_r. reflexivity.
  - injection L as <-. unfold node_blocks, part_blocks; cbn [decode_partition map]; unfold shift_blk; cbn [b_row b_col b_h b_w filter]. unfold in_frame. cbn [b_row b_col]. rewrite !Z.add_0_r.
    assert (0 <= n / 2) by (destruct Hn as [->|[->|[->| ->]]]; cbn; lia).
    destruct (Z.leb_spec FR R), (Z.leb_spec FC C); cbn [orb];
      try (replace (R <? FR) with false by lia; reflexivity);
      try (replace (C <? FC) with false by lia; replace (C + n / 2 <? FC) with false by lia; rewrite !andb_false_r; reflexivity).
    replace (R <? FR) with true by lia. replace (C <? FC) with true by lia. cbn [andb]. reflexivity.
  - destruct (Z.eqb_spec n 2) as [->|]; [|discriminate]. injection L as <-. cbn in W.
    destruct W as (_ & W1 & W2 & W3 & W4).
    assert (T : forall t, wf_tree 1 t -> t = TNone) by (intros [| | |]; cbn; intros; lia || reflexivity).
    rewrite (T t1 W1), (T t2 W2), (T t3 W3), (T t4 W4).
    unfold node_blocks, part_blocks; cbn [decode_partition map]; unfold shift_blk; cbn [b_row b_col b_h b_w filter]. unfold in_frame. cbn [b_row b_col]. change (2 / 2) with 1. rewrite !Z.add_0_r.
    destruct (Z.leb_spec FR R), (Z.leb_spec FC C), (Z.leb_spec FR (R + 1)), (Z.leb_spec FC (C + 1)); try lia; cbn [orb app];
      try (replace (R <? FR) with true by lia); try (replace (R <? FR) with false by lia);
      try (replace (C <? FC) with true by lia); try (replace (C <? FC) with false by lia);
      try (replace (R + 1 <? FR) with true by lia); try (replace (R + 1 <? FR) with false by lia);
      try (replace (C + 1 <? FC) with true by lia); try (replace (C + 1 <? FC) with false by lia); reflexivity.
Qed.
Lemma leaf_kinds t n k : tree_ok sx sy t -> leaf_kind t n = Some k -> In k (kinds n sx sy).
Proof.
  intros T L. unfold kinds. destruct t; cbn in *.
  - injection L as <-. auto.
  - injection L as <-. auto.
  - injection L as <-. right. right. replace ((sx =? 1) && (sy =? 0)) with false by lia. left. reflexivity.
  - destruct (n =? 2); [|discriminate]. injection L as <-. right. right. apply in_or_app. right. left. reflexivity.
Qed.
Lemma quarters n R C : In n sizes -> n <> 2 -> node_at n R -> node_at n C ->
  In n [4; 8; 16] /\ In (n / 2) sizes /\ In (n / 2) [2; 4; 8] /\ forall q, 0 <= q < 4 -> node_at (n / 2) (qr R n q) /\ node_at (n / 2) (qc C n q).
Proof.
  intros Hn N2 [HR MR] [HC MC]. apply size_pos in Hn. unfold node_at, qr, qc.
  destruct Hn as [->|[->|[->| ->]]]; [congruence| | |]; (split; [cbn; auto|]; split; [cbn; auto|]; split; [cbn; auto|]); intros q Hq.
  - change (4 / 2) with 2. repeat split; dlia.
  - change (8 / 2) with 4. repeat split; dlia.
  - change (16 / 2) with 8. repeat split; dlia.
Qed.
Lemma split_blocks n R C t1 t2 t3 t4 : In n sizes ->
  decode_partition FR FC (TSplit t1 t2 t3 t4) R C n =
  if (FR <=? R) || (FC <=? C) then [] else
  decode_partition FR FC t1 (qr R n 0) (qc C n 0) (n / 2) ++ decode_partition FR FC t2 (qr R n 1) (qc C n 1) (n / 2) ++
  decode_partition FR FC t3 (qr R n 2) (qc C n 2) (n / 2) ++ decode_partition FR FC t4 (qr R n 3) (qc C n 3) (n / 2).
Proof.
  intros _. unfold qr, qc. change (0 / 2) with 0. change (1 / 2) with 0. change (2 / 2) with 1. change (3 / 2) with 1.
  change (0 mod 2) with 0. change (1 mod 2) with 1. change (2 mod 2) with 0. change (3 mod 2) with 1. rewrite !Z.mul_0_l, !Z.mul_1_l, !Z.add_0_r. reflexivity.
Qed.
(* outside the frame there are no cells *)
Lemma node_outside y x R C n : cells y x -> FR <= R \/ FC <= C -> in_node sx sy y x R C n = false.
Proof.
  intros (_ & _ & A & B) H. unfold in_node, in_rect. destruct H as [H|H].
  - apply (shiftr_mono _ _ sy) in H; [|destruct S0; lia]. replace (Z.shiftr R sy <=? y) with false by lia. reflexivity.
  - apply (shiftr_mono _ _ sx) in H; [|destruct S0; lia]. replace (Z.shiftr C sx <=? x) with false by lia. rewrite andb_false_r. reflexivity.
Qed.
Lemma four_quarters n R C y x : In n [4; 8; 16] -> node_at n R -> node_at n C ->
  existsb (fun j => in_node sx sy y x (qr R n j) (qc C n j) (n / 2)) (upto 4) = in_node sx sy y x R C n.
Proof.
  intros Hn [HR MR] [HC MC]. change (upto 4) with [0; 1; 2; 3]. cbn [existsb]. unfold in_node, in_rect, qr, qc.
  change (0 / 2) with 0. change (1 / 2) with 0. change (2 / 2) with 1. change (3 / 2) with 1.
  change (0 mod 2) with 0. change (1 mod 2) with 1. change (2 mod 2) with 0. change (3 mod 2) with 1. rewrite !Z.mul_0_l, !Z.mul_1_l, !Z.add_0_r.
  assert (E : forall v k, 0 <= k <= 1 -> v mod n = 0 -> 0 <= v -> Z.shiftr (v + n / 2) k = Z.shiftr v k + Z.shiftr (n / 2) k /\ Z.shiftr n k = 2 * Z.shiftr (n / 2) k /\ 0 < Z.shiftr (n / 2) k).
  { intros v k Hk Hm Hv. assert (K : k = 0 \/ k = 1) by lia. rewrite !Z.shiftr_div_pow2 by lia.
    cbn in Hn. destruct Hn as [<-|[<-|[<-|[]]]], K as [-> | ->]; cbn [Z.pow Z.pow_pos Pos.iter Z.mul Pos.mul] in *; repeat split; dlia. }
  destruct (E R sy ltac:(destruct S0; lia) MR ltac:(lia)) as (E1 & E2 & E3). destruct (E C sx ltac:(destruct S0; lia) MC ltac:(lia)) as (E4 & E5 & E6).
  rewrite E1, E2, E4, E5. clear - E3 E6. generalize dependent (Z.shiftr (n / 2) sy). generalize dependent (Z.shiftr (n / 2) sx).
  intros a Ha b Hb. generalize (Z.shiftr R sy) (Z.shiftr C sx). intros u v. 
  destruct (Z.leb_spec u y), (Z.ltb_spec y (u + b)), (Z.leb_spec v x), (Z.ltb_spec x (v + a)), (Z.leb_spec (u + b) y), (Z.ltb_spec y (u + b + b)), (Z.leb_spec (v + a) x), (Z.ltb_spec x (v + a + a)),
    (Z.ltb_spec y (u + 2 * b)), (Z.ltb_spec x (v + 2 * a)); reflexivity || lia.
Qed.

Lemma node_cover t : forall n R C y x, In n sizes -> node_at n R -> node_at n C -> wf_tree n t -> tree_ok sx sy t -> cells y x ->
  existsb (covers sx sy y x) (decode_partition FR FC t R C n) = in_node sx sy y x R C n.
Proof.
  assert (LEAF : forall t n R C y x k, In n sizes -> node_at n R -> node_at n C -> wf_tree n t -> tree_ok sx sy t -> cells y x -> leaf_kind t n = Some k ->
    existsb (covers sx sy y x) (decode_partition FR FC t R C n) = in_node sx sy y x R C n).
  { intros t0 n R C y x k Hn HR HC W T HC0 L. rewrite (leaf_blocks t0 n k R C Hn W L), existsb_filter.
    - apply cover_fact; auto; [apply (leaf_kinds t0); auto|apply HC0|apply HC0].
    - intros b. apply (covers_in_frame y x). exact HC0. }
  induction t as [| | |t1 IH1 t2 IH2 t3 IH3 t4 IH4]; intros n R C y x Hn HR HC W T HC0; try (eapply LEAF; eauto; reflexivity).
  destruct (Z.eq_dec n 2) as [->|N2]; [eapply LEAF; eauto; reflexivity|].
  destruct (quarters n R C Hn N2 HR HC) as (N4 & Nh & _ & Q). rewrite split_blocks by exact Hn.
  destruct W as (_ & W1 & W2 & W3 & W4). destruct T as (T1 & T2 & T3 & T4).
  destruct ((FR <=? R) || (FC <=? C)) eqn:O.
  { cbn. symmetry. apply node_outside; [exact HC0|]. clear - O. lia. }
  rewrite !existsb_app, (IH1 (n / 2)), (IH2 (n / 2)), (IH3 (n / 2)), (IH4 (n / 2)); auto; try (apply Q; lia).
  rewrite <- (four_quarters n R C y x N4 HR HC).
  change (upto 4) with [0; 1; 2; 3]. cbn [existsb]. rewrite orb_false_r. reflexivity.
Qed.

(** ** The blocks before a block *)
Lemma before_block t : forall n R C pre b post, In n sizes -> node_at n R -> node_at n C -> wf_tree n t -> tree_ok sx sy t ->
  decode_partition FR FC t R C n = pre ++ b :: post ->
  exists n' R' C' k l1 l2, In n' sizes /\ node_at n' R' /\ node_at n' C' /\ n' <= n /\ R <= R' < R + n /\ C <= C' < C + n /\
    In k (kinds n' sx sy) /\ node_blocks k R' C' n' = l1 ++ b :: l2 /\ in_frame b = true /\
    forall y x, cells y x -> existsb (covers sx sy y x) pre = (in_node sx sy y x R C n && cell_before sx sy y x R' C') || existsb (covers sx sy y x) l1.
Proof.
  assert (LEAF : forall t n R C pre b post k, In n sizes -> node_at n R -> node_at n C -> wf_tree n t -> tree_ok sx sy t -> leaf_kind t n = Some k ->
    decode_partition FR FC t R C n = pre ++ b :: post ->
    exists n' R' C' k l1 l2, In n' sizes /\ node_at n' R' /\ node_at n' C' /\ n' <= n /\ R <= R' < R + n /\ C <= C' < C + n /\
    In k (kinds n' sx sy) /\ node_blocks k R' C' n' = l1 ++ b :: l2 /\ in_frame b = true /\
    forall y x, cells y x -> existsb (covers sx sy y x) pre = (in_node sx sy y x R C n && cell_before sx sy y x R' C') || existsb (covers sx sy y x) l1).
  { intros t0 n R C pre b post k Hn HR HC W T L E. rewrite (leaf_blocks t0 n k R C Hn W L) in E.
    assert (IB : in_frame b = true). { assert (I : In b (filter in_frame (node_blocks k R C n))) by (rewrite E; apply in_or_app; right; left; auto). apply filter_In in I. apply I. }
    destruct (filter_mid _ _ _ _ _ E) as (l1 & l2 & E1 & E2).
    assert (0 < n) by (apply size_pos in Hn; lia).
    exists n, R, C, k, l1, l2. split; [auto|]. split; [auto|]. split; [auto|]. split; [lia|]. split; [lia|]. split; [lia|].
    split; [apply (leaf_kinds t0); auto|]. split; [auto|]. split; [auto|]. intros y x Hc.
    rewrite (first_fact sx sy S0 n R C y x Hn HR HC) by apply Hc. cbn [orb]. rewrite <- E2, existsb_filter; [reflexivity|].
    intros a. apply (covers_in_frame y x). exact Hc. }
  induction t as [| | |t1 IH1 t2 IH2 t3 IH3 t4 IH4]; intros n R C pre b post Hn HR HC W T E; try (eapply LEAF; eauto; reflexivity).
  destruct (Z.eq_dec n 2) as [->|N2]; [eapply LEAF; eauto; reflexivity|].
  destruct (quarters n R C Hn N2 HR HC) as (N4 & Nh & Nh' & Q). rewrite split_blocks in E by exact Hn.
  pose proof W as (_ & W1 & W2 & W3 & W4). pose proof T as (T1 & T2 & T3 & T4).
  destruct ((FR <=? R) || (FC <=? C)) eqn:O; [destruct pre; discriminate|].
  assert (STEP : forall q pq tq before, 0 <= q < 4 ->
    (exists n' R' C' k l1 l2, In n' sizes /\ node_at n' R' /\ node_at n' C' /\ n' <= n / 2 /\ qr R n q <= R' < qr R n q + n / 2 /\ qc C n q <= C' < qc C n q + n / 2 /\
    In k (kinds n' sx sy) /\ node_blocks k R' C' n' = l1 ++ b :: l2 /\ in_frame b = true /\
    forall y x, cells y x -> existsb (covers sx sy y x) pq = (in_node sx sy y x (qr R n q) (qc C n q) (n / 2) && cell_before sx sy y x R' C') || existsb (covers sx sy y x) l1) ->
    tq = q -> (forall y x, cells y x -> existsb (covers sx sy y x) before = existsb (fun j => in_node sx sy y x (qr R n j) (qc C n j) (n / 2)) (upto q)) ->
    pre = before ++ pq ->
    exists n' R' C' k l1 l2, In n' sizes /\ node_at n' R' /\ node_at n' C' /\ n' <= n /\ R <= R' < R + n /\ C <= C' < C + n /\
    In k (kinds n' sx sy) /\ node_blocks k R' C' n' = l1 ++ b :: l2 /\ in_frame b = true /\
    forall y x, cells y x -> existsb (covers sx sy y x) pre = (in_node sx sy y x R C n && cell_before sx sy y x R' C') || existsb (covers sx sy y x) l1).
  { intros q pq tq before Hq (n' & R' & C' & k & l1 & l2 & A1 & A2 & A3 & A4 & A5 & A6 & A7 & A8 & A9 & A10) _ B ->.
    assert (Hn' : In n' [2; 4; 8]). { clear - A1 A4 N4. cbn in *. destruct A1 as [<-|[<-|[<-|[<-|[]]]]]; auto. destruct N4 as [<-|[<-|[<-|[]]]]; cbn in A4; lia. }
    assert (G : R <= qr R n q /\ qr R n q + n / 2 <= R + n /\ C <= qc C n q /\ qc C n q + n / 2 <= C + n /\ n / 2 <= n).
    { clear - N4 Hq. unfold qr, qc. cbn in N4. destruct N4 as [<-|[<-|[<-|[]]]]; [change (4/2) with 2|change (8/2) with 4|change (16/2) with 8]; dlia. }
    exists n', R', C', k, l1, l2. split; [auto|]. split; [auto|]. split; [auto|]. split; [lia|]. split; [lia|]. split; [lia|]. split; [auto|]. split; [auto|]. split; [auto|].
    intros y x Hc. rewrite existsb_app, (B y x Hc), (A10 y x Hc).
    rewrite <- (quarter_fact sx sy S0 n R C q n' R' C' y x N4 HR HC Hq Hn' A2 A3 A5 A6) by apply Hc. rewrite orb_assoc. reflexivity. }
  assert (U : forall y x, cells y x -> 
     existsb (covers sx sy y x) (decode_partition FR FC t1 (qr R n 0) (qc C n 0) (n / 2)) = in_node sx sy y x (qr R n 0) (qc C n 0) (n / 2) /\
     existsb (covers sx sy y x) (decode_partition FR FC t2 (qr R n 1) (qc C n 1) (n / 2)) = in_node sx sy y x (qr R n 1) (qc C n 1) (n / 2) /\
     existsb (covers sx sy y x) (decode_partition FR FC t3 (qr R n 2) (qc C n 2) (n / 2)) = in_node sx sy y x (qr R n 2) (qc C n 2) (n / 2)).
  { intros y x Hc. split; [|split]; apply node_cover; auto; apply Q; lia. }
  apply app_mid in E. destruct E as [(p & E)|(p & Ep & E)].
  { apply (STEP 0 pre 0 []); [lia| |auto|reflexivity|reflexivity]. apply (IH1 _ _ _ _ _ p); auto; apply Q; lia. }
  apply app_mid in E. destruct E as [(p' & E)|(p' & Ep' & E)].
  { apply (STEP 1 p 1 (decode_partition FR FC t1 (qr R n 0) (qc C n 0) (n / 2))); [lia| |auto| |exact Ep].
    - apply (IH2 _ _ _ _ _ p'); auto; apply Q; lia.
    - intros y x Hc. destruct (U y x Hc) as (-> & _). change (upto 1) with [0]. cbn [existsb]. rewrite orb_false_r. reflexivity. }
  apply app_mid in E. destruct E as [(p'' & E)|(p'' & Ep'' & E)].
  { apply (STEP 2 p' 2 (decode_partition FR FC t1 (qr R n 0) (qc C n 0) (n / 2) ++ decode_partition FR FC t2 (qr R n 1) (qc C n 1) (n / 2))); [lia| |auto| |rewrite Ep, Ep', app_assoc; reflexivity].
    - apply (IH3 _ _ _ _ _ p''); auto; apply Q; lia.
    - intros y x Hc. destruct (U y x Hc) as (U1 & U2 & _). rewrite existsb_app, U1, U2. change (upto 2) with [0; 1]. cbn [existsb]. rewrite orb_false_r. reflexivity. }
  apply (STEP 3 p'' 3 (decode_partition FR FC t1 (qr R n 0) (qc C n 0) (n / 2) ++ decode_partition FR FC t2 (qr R n 1) (qc C n 1) (n / 2) ++ decode_partition FR FC t3 (qr R n 2) (qc C n 2) (n / 2))); [lia| |auto| |rewrite Ep, Ep', Ep'', <- !app_assoc; reflexivity].
  - apply (IH4 _ _ _ _ _ post); auto; apply Q; lia.
  - intros y x Hc. destruct (U y x Hc) as (U1 & U2 & U3). rewrite !existsb_app, U1, U2, U3. change (upto 3) with [0; 1; 2]. cbn [existsb]. rewrite orb_false_r. reflexivity.
Qed.
End Local.
