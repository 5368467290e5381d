(** Decoding order inside a superblock: the blocks before a given one cover exactly the cells
    that come earlier in the Z-shaped order, and the encoder's tests agree with that.
    Positions are relative to the superblock; everything here is a finite computation. *)
From Verif Require Import Base Edge_model.
From Verif Require Import Edge_spec.
Local Open Scope Z_scope.

(* interleaved bits *)
Definition spread (v : Z) : Z := Z.land v 1 + 4 * Z.land (Z.shiftr v 1) 1 + 16 * Z.land (Z.shiftr v 2) 1 + 64 * Z.land (Z.shiftr v 3) 1.
Definition morton (y x : Z) : Z := 2 * spread y + spread x.

Inductive kind := KNone | KHorz | KVert | KFour.
(* the blocks of an undivided node (and of an 8x8 node divided in four), relative to its corner *)
Definition part_blocks (k : kind) (n : Z) : list blk :=
  match k with
  | KNone => [mkBlk 0 0 n n]
  | KHorz => [mkBlk 0 0 (n / 2) n; mkBlk (n / 2) 0 (n / 2) n]
  | KVert => [mkBlk 0 0 n (n / 2); mkBlk 0 (n / 2) n (n / 2)]
  | KFour => [mkBlk 0 0 (n / 2) (n / 2); mkBlk 0 (n / 2) (n / 2) (n / 2); mkBlk (n / 2) 0 (n / 2) (n / 2); mkBlk (n / 2) (n / 2) (n / 2) (n / 2)]
  end.
Definition shift_blk (r c : Z) (b : blk) : blk := mkBlk (r + b_row b) (c + b_col b) (b_h b) (b_w b).
Definition node_blocks (k : kind) (R C n : Z) : list blk := map (shift_blk R C) (part_blocks k n).
Definition kinds (n : Z) (sx sy : Z) : list kind :=
  [KNone; KHorz] ++ (if (sx =? 1) && (sy =? 0) then [] else [KVert]) ++ (if n =? 2 then [KFour] else []).

Definition sizes : list Z := [2; 4; 8; 16].
Definition steps (n : Z) : list Z := map (fun i => i * n) (upto (16 / n)).

(* the cell y, x of a plane lies in the part of the plane that belongs to the block *)
Definition covers (sx sy y x : Z) (b : blk) : bool :=
  HasChroma sx sy b && in_rect y x (Z.shiftr (b_row b) sy) (Z.shiftr (b_col b) sx) (plane_h sy b) (plane_w sx b).
Definition in_node (sx sy y x R C n : Z) : bool :=
  in_rect y x (Z.shiftr R sy) (Z.shiftr C sx) (Z.shiftr n sy) (Z.shiftr n sx).
Definition cell_before (sx sy y x R C : Z) : bool := morton (Z.shiftl y sy) (Z.shiftl x sx) <? morton R C.

(** ** Coverage of a node *)
Definition chk_cover (sx sy : Z) : bool :=
  forallb (fun n => forallb (fun R => forallb (fun C => forallb (fun k =>
    forallb (fun y => forallb (fun x =>
      Bool.eqb (existsb (covers sx sy y x) (node_blocks k R C n)) (in_node sx sy y x R C n))
    (upto (Z.shiftr 16 sx))) (upto (Z.shiftr 16 sy)))
  (kinds n sx sy)) (steps n)) (steps n)) sizes.
Lemma cover_444 : chk_cover 0 0 = true. Proof. vm_compute. reflexivity. Qed.
Lemma cover_422 : chk_cover 1 0 = true. Proof. vm_compute. reflexivity. Qed.
Lemma cover_420 : chk_cover 1 1 = true. Proof. vm_compute. reflexivity. Qed.

(** ** Quarters of a node, and the order of what is inside them *)
(* position of the quarter q *)
Definition qr (R n q : Z) : Z := R + (q / 2) * (n / 2).
Definition qc (C n q : Z) : Z := C + (q mod 2) * (n / 2).
(* the positions of nodes of size n' between a and a + m *)
Definition steps_in (n' a m : Z) : list Z := filter (fun v => (a <=? v) && (v <? a + m)) (steps n').
Definition chk_quarter (sx sy : Z) : bool :=
  forallb (fun n => forallb (fun R => forallb (fun C => forallb (fun q =>
    forallb (fun n' => forallb (fun R' => forallb (fun C' =>
      forallb (fun y => forallb (fun x =>
        Bool.eqb (existsb (fun j => in_node sx sy y x (qr R n j) (qc C n j) (n / 2)) (upto q) ||
                  (in_node sx sy y x (qr R n q) (qc C n q) (n / 2) && cell_before sx sy y x R' C'))
                 (in_node sx sy y x R C n && cell_before sx sy y x R' C'))
      (upto (Z.shiftr 16 sx))) (upto (Z.shiftr 16 sy)))
    (steps_in n' (qc C n q) (n / 2))) (steps_in n' (qr R n q) (n / 2))) [2; 4; 8])
  (upto 4)) (steps n)) (steps n)) [4; 8; 16].
Lemma quarter_444 : chk_quarter 0 0 = true. Proof. vm_compute. reflexivity. Qed.
Lemma quarter_422 : chk_quarter 1 0 = true. Proof. vm_compute. reflexivity. Qed.
Lemma quarter_420 : chk_quarter 1 1 = true. Proof. vm_compute. reflexivity. Qed.

(** ** The tests of the encoder *)
(* is the cell decoded when l1 are the earlier blocks of the node at R, C, and pre the earlier
   transform blocks of the block?  Rows above the superblock, and the superblock to the left, are. *)
Definition avail (sx sy : Z) (l1 : list blk) (pre : list tx) (R C y x : Z) : bool :=
  if y <? 0 then true
  else if x <? 0 then y <? Z.shiftr 16 sy
  else if (Z.shiftr 16 sx <=? x) || (Z.shiftr 16 sy <=? y) then false
  else cell_before sx sy y x R C || existsb (covers sx sy y x) l1 ||
       existsb (fun t => in_rect y x (t_y t) (t_x t) (t_h t) (t_w t)) pre.
Definition local_tr (sx sy : Z) (b : blk) (t : tx) : option bool :=
  let '(sw, sh) := supersample_chroma_bsize (b_w b) (b_h b) sx sy in
  has_top_right sw sh (b_row b) (b_col b) true true (t_w t) (t_y t - Z.shiftr (b_row b) sy) (t_x t - Z.shiftr (b_col b) sx) sx.
Definition local_bl (sx sy : Z) (b : blk) (t : tx) : option bool :=
  let '(sw, sh) := supersample_chroma_bsize (b_w b) (b_h b) sx sy in
  has_bottom_left sw sh (b_row b) (b_col b) true true (t_h t) (t_y t - Z.shiftr (b_row b) sy) (t_x t - Z.shiftr (b_col b) sx) sy.
Definition says (o : option bool) (first : bool) (all : list bool) : bool :=
  match o with Some v => Bool.eqb v first && (negb v || forallb (fun b => b) all) | None => false end.
Definition chk_tx (sx sy : Z) (l1 : list blk) (R C : Z) (b : blk) (pre : list tx) (t : tx) : bool :=
  let av := avail sx sy l1 pre R C in
  says (local_tr sx sy b t) (av (t_y t - 1) (t_x t + t_w t)) (map (fun i => av (t_y t - 1) (t_x t + t_w t + i)) (upto (t_w t))) &&
  says (local_bl sx sy b t) (av (t_y t + t_h t) (t_x t - 1)) (map (fun i => av (t_y t + t_h t + i) (t_x t - 1)) (upto (t_h t))).
Fixpoint each {A} (f : list A -> A -> bool) (pre l : list A) : bool :=
  match l with [] => true | t :: l' => f pre t && each f (pre ++ [t]) l' end.
Definition tx_sizes (m : Z) : list Z := filter (fun v => v <=? m) [1; 2; 4; 8; 16].
Definition local_raster (sx sy : Z) (b : blk) (th tw : Z) : list tx :=
  raster (Z.shiftr (b_row b) sy) (Z.shiftr (b_col b) sx) (plane_h sy b) (plane_w sx b) th tw.
Definition chk_block (sx sy R C : Z) (l1 : list blk) (b : blk) : bool :=
  negb (HasChroma sx sy b) ||
  forallb (fun th => forallb (fun tw => each (chk_tx sx sy l1 R C b) [] (local_raster sx sy b th tw))
    (tx_sizes (plane_w sx b))) (tx_sizes (plane_h sy b)).
Definition chk_tests (sx sy : Z) : bool :=
  forallb (fun n => forallb (fun R => forallb (fun C => forallb (fun k =>
    each (chk_block sx sy R C) [] (node_blocks k R C n)) (kinds n sx sy)) (steps n)) (steps n)) sizes.
Lemma tests_444 : chk_tests 0 0 = true. Proof. vm_compute. reflexivity. Qed.
Lemma tests_422 : chk_tests 1 0 = true. Proof. vm_compute. reflexivity. Qed.
Lemma tests_420 : chk_tests 1 1 = true. Proof. vm_compute. reflexivity. Qed.

Definition chk_mv : bool :=
  forallb (fun n => forallb (fun R => forallb (fun C => forallb (fun k =>
    each (fun l1 b => Bool.eqb (has_tr (b_row b) (b_col b) (b_w b) (b_h b)) (avail 0 0 l1 [] R C (b_row b - 1) (b_col b + b_w b)))
      [] (node_blocks k R C n)) (kinds n 0 0)) (steps n)) (steps n)) sizes.
Lemma mv_test : chk_mv = true. Proof. vm_compute. reflexivity. Qed.

(** ** Small facts about nodes and blocks *)
Definition chk_first (sx sy : Z) : bool :=
  forallb (fun n => forallb (fun R => forallb (fun C => 
    forallb (fun y => forallb (fun x => negb (in_node sx sy y x R C n && cell_before sx sy y x R C))
    (upto (Z.shiftr 16 sx))) (upto (Z.shiftr 16 sy))) (steps n)) (steps n)) sizes.
Lemma first_444 : chk_first 0 0 = true. Proof. vm_compute. reflexivity. Qed.
Lemma first_422 : chk_first 1 0 = true. Proof. vm_compute. reflexivity. Qed.
Lemma first_420 : chk_first 1 1 = true. Proof. vm_compute. reflexivity. Qed.
(* blocks lie in the superblock, and their sizes are powers of two *)
Definition chk_inside (sx sy : Z) : bool :=
  forallb (fun n => forallb (fun R => forallb (fun C => forallb (fun k => forallb (fun b =>
    (0 <=? b_row b) && (b_row b + b_h b <=? 16) && (0 <=? b_col b) && (b_col b + b_w b <=? 16) &&
    (negb (HasChroma sx sy b) || ((Z.shiftr (b_row b) sy + plane_h sy b <=? Z.shiftr 16 sy) && (Z.shiftr (b_col b) sx + plane_w sx b <=? Z.shiftr 16 sx))) &&
    existsb (Z.eqb (plane_h sy b)) [1; 2; 4; 8; 16] && existsb (Z.eqb (plane_w sx b)) [1; 2; 4; 8; 16])
  (node_blocks k R C n)) (kinds n sx sy)) (steps n)) (steps n)) sizes.
Lemma inside_444 : chk_inside 0 0 = true. Proof. vm_compute. reflexivity. Qed.
Lemma inside_422 : chk_inside 1 0 = true. Proof. vm_compute. reflexivity. Qed.
Lemma inside_420 : chk_inside 1 1 = true. Proof. vm_compute. reflexivity. Qed.

(** ** The computations as statements *)
Definition sub_ok (sx sy : Z) : Prop := (sx = 0 /\ sy = 0) \/ (sx = 1 /\ sy = 0) \/ (sx = 1 /\ sy = 1).
Definition node_at (n v : Z) : Prop := 0 <= v < 16 /\ v mod n = 0.
Lemma upto_in n i : 0 <= i < n -> In i (upto n).
Proof. intros H. unfold upto. apply in_map_iff. exists (Z.to_nat i). split; [lia|]. apply in_seq. lia. Qed.
Lemma in_upto n i : In i (upto n) -> 0 <= i < n.
Proof. unfold upto. intros H. apply in_map_iff in H. destruct H as (k & <- & K). apply in_seq in K. lia. Qed.
Lemma size_pos n : In n sizes -> n = 2 \/ n = 4 \/ n = 8 \/ n = 16.
Proof. cbn. intros [H|[H|[H|[H|[]]]]]; auto. Qed.
Lemma steps_in_list n v : In n sizes -> node_at n v -> In v (steps n).
Proof.
  intros Hn [Hv Hm]. unfold steps. apply in_map_iff. exists (v / n).
  apply size_pos in Hn. split; [|apply upto_in]; destruct Hn as [->|[->|[->| ->]]]; dlia.
Qed.
Lemma forallb_in {A} (f : A -> bool) l a : forallb f l = true -> In a l -> f a = true.
Proof. intros H I. rewrite forallb_forall in H. auto. Qed.
Lemma each_spec {A} (f : list A -> A -> bool) l : forall pre l1 a l2, each f pre l = true -> l = l1 ++ a :: l2 -> f (pre ++ l1) a = true.
Proof.
  induction l as [|h l IH]; intros pre l1 a l2 H E; [destruct l1; discriminate|]. cbn in H. apply andb_prop in H. destruct H as [H1 H2].
  destruct l1 as [|h1 l1]; cbn in E; injection E as -> E.
  - rewrite app_nil_r. exact H1.
  - specialize (IH (pre ++ [h1]) l1 a l2 H2 E). rewrite <- app_assoc in IH. exact IH.
Qed.

Section Facts.
Variables sx sy : Z.
Hypothesis S0 : sub_ok sx sy.
Lemma all_tests : chk_cover sx sy = true /\ chk_quarter sx sy = true /\ chk_first sx sy = true /\ chk_tests sx sy = true /\ chk_inside sx sy = true.
Proof.
  destruct S0 as [[-> ->]|[[-> ->]|[-> ->]]].
  - exact (conj cover_444 (conj quarter_444 (conj first_444 (conj tests_444 inside_444)))).
  - exact (conj cover_422 (conj quarter_422 (conj first_422 (conj tests_422 inside_422)))).
  - exact (conj cover_420 (conj quarter_420 (conj first_420 (conj tests_420 inside_420)))).
Qed.
Ltac use H v I := let K := fresh in pose proof (forallb_in _ _ v H I) as K; cbv beta in K; clear H; rename K into H.
Lemma cover_fact n R C k y x : In n sizes -> node_at n R -> node_at n C -> In k (kinds n sx sy) ->
  0 <= y < Z.shiftr 16 sy -> 0 <= x < Z.shiftr 16 sx ->
  existsb (covers sx sy y x) (node_blocks k R C n) = in_node sx sy y x R C n.
Proof.
  intros Hn HR HC Hk Hy Hx. destruct all_tests as (H & _). unfold chk_cover in H.
  use H n Hn. use H R (steps_in_list n R Hn HR). use H C (steps_in_list n C Hn HC). use H k Hk.
  use H y (upto_in _ y Hy). use H x (upto_in _ x Hx). apply eqb_prop in H. exact H.
Qed.
Lemma first_fact n R C y x : In n sizes -> node_at n R -> node_at n C ->
  0 <= y < Z.shiftr 16 sy -> 0 <= x < Z.shiftr 16 sx -> in_node sx sy y x R C n && cell_before sx sy y x R C = false.
Proof.
  intros Hn HR HC Hy Hx. destruct all_tests as (_ & _ & H & _). unfold chk_first in H.
  use H n Hn. use H R (steps_in_list n R Hn HR). use H C (steps_in_list n C Hn HC).
  use H y (upto_in _ y Hy). use H x (upto_in _ x Hx). apply negb_true_iff in H. exact H.
Qed.
Lemma quarter_fact n R C q n' R' C' y x : In n [4; 8; 16] -> node_at n R -> node_at n C -> 0 <= q < 4 ->
  In n' [2; 4; 8] -> node_at n' R' -> node_at n' C' -> qr R n q <= R' < qr R n q + n / 2 -> qc C n q <= C' < qc C n q + n / 2 ->
  0 <= y < Z.shiftr 16 sy -> 0 <= x < Z.shiftr 16 sx ->
  existsb (fun j => in_node sx sy y x (qr R n j) (qc C n j) (n / 2)) (upto q) ||
    (in_node sx sy y x (qr R n q) (qc C n q) (n / 2) && cell_before sx sy y x R' C')
  = in_node sx sy y x R C n && cell_before sx sy y x R' C'.
Proof.
  intros Hn HR HC Hq Hn' HR' HC' A B Hy Hx. destruct all_tests as (_ & H & _). unfold chk_quarter in H.
  assert (S1 : In n sizes) by (cbn in *; tauto). assert (S2 : In n' sizes) by (cbn in *; tauto).
  use H n Hn. use H R (steps_in_list n R S1 HR). use H C (steps_in_list n C S1 HC). use H q (upto_in _ q Hq).
  use H n' Hn'.
  assert (I1 : In R' (steps_in n' (qr R n q) (n / 2))) by (apply filter_In; split; [apply steps_in_list; auto|lia]).
  assert (I2 : In C' (steps_in n' (qc C n q) (n / 2))) by (apply filter_In; split; [apply steps_in_list; auto|lia]).
  use H R' I1. use H C' I2. use H y (upto_in _ y Hy). use H x (upto_in _ x Hx). apply eqb_prop in H. exact H.
Qed.
Lemma tests_fact n R C k l1 b l2 : In n sizes -> node_at n R -> node_at n C -> In k (kinds n sx sy) ->
  node_blocks k R C n = l1 ++ b :: l2 -> chk_block sx sy R C l1 b = true.
Proof.
  intros Hn HR HC Hk E. destruct all_tests as (_ & _ & _ & H & _). unfold chk_tests in H.
  use H n Hn. use H R (steps_in_list n R Hn HR). use H C (steps_in_list n C Hn HC). use H k Hk.
  exact (each_spec _ _ [] l1 b l2 H E).
Qed.
Lemma inside_fact n R C k b : In n sizes -> node_at n R -> node_at n C -> In k (kinds n sx sy) ->
  In b (node_blocks k R C n) ->
  0 <= b_row b /\ b_row b + b_h b <= 16 /\ 0 <= b_col b /\ b_col b + b_w b <= 16 /\
  (HasChroma sx sy b = true -> Z.shiftr (b_row b) sy + plane_h sy b <= Z.shiftr 16 sy /\ Z.shiftr (b_col b) sx + plane_w sx b <= Z.shiftr 16 sx) /\
  In (plane_h sy b) [1; 2; 4; 8; 16] /\ In (plane_w sx b) [1; 2; 4; 8; 16].
Proof.
  intros Hn HR HC Hk E. destruct all_tests as (_ & _ & _ & _ & H). unfold chk_inside in H.
  use H n Hn. use H R (steps_in_list n R Hn HR). use H C (steps_in_list n C Hn HC). use H k Hk. use H b E.
  rewrite !andb_true_iff in H. destruct H as ((((((H1 & H2) & H3) & H4) & H5) & H6) & H7).
  apply Z.leb_le in H1, H2, H3, H4. split; [exact H1|]. split; [exact H2|]. split; [exact H3|]. split; [exact H4|]. split.
  - intros Hc. rewrite Hc in H5. cbn [negb orb] in H5. apply andb_prop in H5. destruct H5 as [A B]. apply Z.leb_le in A, B. auto.
  - rewrite existsb_exists in H6, H7. destruct H6 as (v & V1 & V2), H7 as (w & W1 & W2). apply Z.eqb_eq in V2, W2. subst. auto.
Qed.
End Facts.
Lemma mv_fact n R C k l1 b l2 : In n sizes -> node_at n R -> node_at n C -> In k (kinds n 0 0) ->
  node_blocks k R C n = l1 ++ b :: l2 -> has_tr (b_row b) (b_col b) (b_w b) (b_h b) = avail 0 0 l1 [] R C (b_row b - 1) (b_col b + b_w b).
Proof.
  intros Hn HR HC Hk E. pose proof mv_test as H. unfold chk_mv in H.
  pose proof (forallb_in _ _ n H Hn) as H1. cbv beta in H1. pose proof (forallb_in _ _ R H1 (steps_in_list n R Hn HR)) as H2. cbv beta in H2.
  pose proof (forallb_in _ _ C H2 (steps_in_list n C Hn HC)) as H3. cbv beta in H3. pose proof (forallb_in _ _ k H3 Hk) as H4. cbv beta in H4.
  apply eqb_prop. exact (each_spec _ _ [] l1 b l2 H4 E).
Qed.
