(** The direction search of the encoder is the specification's, stays within i32, and its
    variance is not negative. *)
From Coq Require Import Sorting.Sorted.
From Verif Require Import Base Cdef_model.
From Verif Require Cdef_spec.
Open Scope Z_scope.

Lemma fold_prod {A B C} (f : C -> A -> B -> C) l1 l2 : forall c,
  fold_left (fun c i => fold_left (fun c j => f c i j) l2 c) l1 c =
  fold_left (fun c ij => f c (fst ij) (snd ij)) (list_prod l1 l2) c.
Proof.
  induction l1 as [|a l1 IH]; intros c; cbn [fold_left list_prod]; [reflexivity|].
  rewrite fold_left_app, IH. f_equal.
  clear. revert c; induction l2 as [|b l2 IH]; intros c; cbn [fold_left map fst snd]; [reflexivity|].
  apply IH.
Qed.

Lemma zrange8 : zrange 0 8 = [0; 1; 2; 3; 4; 5; 6; 7]. Proof. reflexivity. Qed.
Lemma range8 : Cdef_spec.range 8 = [0; 1; 2; 3; 4; 5; 6; 7]. Proof. reflexivity. Qed.

Definition sample (img : Z -> Z -> Z) (cs i j : Z) : Z := img i j / 2 ^ cs - 128.

Lemma partials_spec img cs : 0 <= cs -> forall d k, 0 <= d < 8 ->
  partials img cs d k = Cdef_spec.partial (sample img cs) d k.
Proof.
  intros Hcs d k Hd. unfold partials, Cdef_spec.partial. rewrite range8, zrange8.
  rewrite (fold_prod (fun p i j => _)). cbv zeta.
  generalize (list_prod [0; 1; 2; 3; 4; 5; 6; 7] [0; 1; 2; 3; 4; 5; 6; 7]). intros l.
  match goal with |- fold_left ?f l ?p0 d k = _ =>
    assert (H : forall l p, fold_left f l p d k = p d k + Cdef_spec.sum (map (fun ij =>
      if Cdef_spec.line_of d (fst ij) (snd ij) =? k then sample img cs (fst ij) (snd ij) else 0) l)) end.
  2: { rewrite H. lia. }
  clear l. induction l as [|[i j] l IH]; intros p; cbn [fold_left map]; [unfold Cdef_spec.sum; cbn; lia|].
  rewrite IH. unfold Cdef_spec.sum at 2; cbn [fold_right]; fold Cdef_spec.sum. cbn [fst snd].
  match goal with |- ?a + _ = ?b + (?c + _) => cut (a = b + c); [unfold Cdef_spec.sum; lia|] end.
  unfold sample. rewrite <- Z.shiftr_div_pow2 by lia.
  generalize (Z.shiftr (img i j) cs - 128); intros x. unfold add2, Cdef_spec.line_of.
  clear -Hd. assert (Hc : d = 0 \/ d = 1 \/ d = 2 \/ d = 3 \/ d = 4 \/ d = 5 \/ d = 6 \/ d = 7) by lia.
  destruct Hc as [->|[->|[->|[->|[->|[->|[->| ->]]]]]]];
    cbn [Z.eqb Pos.eqb andb]; rewrite ?(Z.eqb_sym k);
    repeat match goal with |- context [k =? ?e] => destruct (Z.eqb_spec k e) end;
    repeat match goal with |- context [?e =? k] => destruct (Z.eqb_spec e k) end; lia.
Qed.

(** ** The costs *)
Lemma set1_other c i v d : d <> i -> set1 c i v d = c d.
Proof. intros H. unfold set1. now rewrite (proj2 (Z.eqb_neq d i)) by lia. Qed.
Lemma set1_same c i v : set1 c i v i = v.
Proof. unfold set1. now rewrite Z.eqb_refl. Qed.
Lemma fold_acc i (f : Z -> Z) : forall l c d,
  fold_left (fun c j => set1 c i (c i + f j)) l c d =
  if d =? i then c i + Cdef_spec.sum (map f l) else c d.
Proof.
  induction l as [|j l IH]; intros c d; cbn [fold_left map].
  - unfold Cdef_spec.sum; cbn. destruct (Z.eqb_spec d i); subst; lia.
  - rewrite IH. unfold set1. rewrite Z.eqb_refl. unfold Cdef_spec.sum; cbn [fold_right].
    destruct (d =? i); lia.
Qed.
Lemma fold_acc2 i1 i2 (f1 f2 : Z -> Z) : i1 <> i2 -> forall l c d,
  fold_left (fun c j => let c' := set1 c i1 (c i1 + f1 j) in set1 c' i2 (c' i2 + f2 j)) l c d =
  if d =? i1 then c i1 + Cdef_spec.sum (map f1 l)
  else if d =? i2 then c i2 + Cdef_spec.sum (map f2 l) else c d.
Proof.
  intros Hi. induction l as [|j l IH]; intros c d; cbn [fold_left map].
  - unfold Cdef_spec.sum; cbn. destruct (Z.eqb_spec d i1), (Z.eqb_spec d i2); subst; lia.
  - rewrite IH. cbv zeta. unfold set1. rewrite !Z.eqb_refl.
    rewrite (proj2 (Z.eqb_neq i1 i2)), (proj2 (Z.eqb_neq i2 i1)) by lia.
    unfold Cdef_spec.sum; cbn [fold_right].
    destruct (d =? i1), (d =? i2); lia.
Qed.

Lemma costs_spec p x : (forall d k, 0 <= d < 8 -> p d k = Cdef_spec.partial x d k) ->
  forall d, 0 <= d < 8 -> costs p d = Cdef_spec.cost x d.
Proof.
  intros Hp.
  set (c1 := costs1 p).
  assert (H1 : forall d, c1 d = if d =? 2 then Cdef_spec.sum (map (fun i => p 2 i * p 2 i) (zrange 0 8))
     else if d =? 6 then Cdef_spec.sum (map (fun i => p 6 i * p 6 i) (zrange 0 8)) else 0).
  { intros d. unfold c1, costs1.
    rewrite (fold_acc2 2 6 (fun i => p 2 i * p 2 i) (fun i => p 6 i * p 6 i)) by lia. reflexivity. }
  set (c2 := costs2 c1).
  assert (H2 : forall d, c2 d = if (d =? 2) || (d =? 6) then c1 d * 105 else c1 d).
  { intros d. unfold c2, costs2, set1. change (idx CDEF_DIV_TABLE 8) with 105. change (6 =? 2) with false. cbv iota.
    destruct (Z.eqb_spec d 2), (Z.eqb_spec d 6); subst; cbn [orb]; lia. }
  set (f := fun d i => (p d i * p d i + p d (14 - i) * p d (14 - i)) * idx CDEF_DIV_TABLE (i + 1)).
  set (c3 := costs3 p c2).
  assert (H3 : forall d, c3 d = if d =? 0 then c2 0 + Cdef_spec.sum (map (f 0) (zrange 0 7))
     else if d =? 4 then c2 4 + Cdef_spec.sum (map (f 4) (zrange 0 7)) else c2 d).
  { intros d. unfold c3, costs3. rewrite (fold_acc2 0 4 (f 0) (f 4)) by lia. reflexivity. }
  set (c4 := costs4 p c3).
  assert (H4 : forall d, c4 d = if (d =? 0) || (d =? 4) then c3 d + p d 7 * p d 7 * 105 else c3 d).
  { intros d. unfold c4, costs4, set1. change (idx CDEF_DIV_TABLE 8) with 105. change (4 =? 0) with false. cbv iota.
    destruct (Z.eqb_spec d 0), (Z.eqb_spec d 4); subst; cbn [orb]; lia. }
  set (g := costs5 p).
  assert (Hg : forall c i d, g c i d = if d =? i then
      (c i + Cdef_spec.sum (map (fun j => p i (3 + j) * p i (3 + j)) (zrange 0 5))) * 105 +
      Cdef_spec.sum (map (fun j => (p i j * p i j + p i (10 - j) * p i (10 - j)) * idx CDEF_DIV_TABLE (2 * j + 2)) (zrange 0 3))
    else c d).
  { intros c i d. unfold g, costs5. cbv zeta.
    rewrite (fold_acc i (fun j => (p i j * p i j + p i (10 - j) * p i (10 - j)) * idx CDEF_DIV_TABLE (2 * j + 2))).
    rewrite set1_same.
    rewrite (fold_acc i (fun j => p i (3 + j) * p i (3 + j))), Z.eqb_refl.
    change (idx CDEF_DIV_TABLE 8) with 105.
    destruct (Z.eqb_spec d i); [reflexivity|]. rewrite set1_other by lia.
    rewrite (fold_acc i (fun j => p i (3 + j) * p i (3 + j))).
    now rewrite (proj2 (Z.eqb_neq d i)) by lia. }
  intros d Hd.
  unfold costs. fold g. fold c1. fold c2. fold c3. fold c4. cbn [fold_left].
  clearbody g c4 c3 c2 c1. rewrite !Hg, !H4, !H3, !H2, !H1. unfold f, Cdef_spec.cost, Cdef_spec.sq.
  change (zrange 0 8) with (Cdef_spec.range 8). change (zrange 0 7) with (Cdef_spec.range 7).
  change (zrange 0 5) with (Cdef_spec.range 5). change (zrange 0 3) with (Cdef_spec.range 3).
  change (Cdef_spec.div_table 8) with 105. change (Cdef_spec.div_table) with (idx CDEF_DIV_TABLE).
  assert (Hc : d = 0 \/ d = 1 \/ d = 2 \/ d = 3 \/ d = 4 \/ d = 5 \/ d = 6 \/ d = 7) by lia.
  assert (E : forall (f1 f2 : Z -> Z) l, (forall k, f1 k = f2 k) -> Cdef_spec.sum (map f1 l) = Cdef_spec.sum (map f2 l))
    by (intros f1 f2 l He; now rewrite (map_ext f1 f2 He l)).
  assert (Es : forall d (e : Z -> Z) l, 0 <= d < 8 ->
    Cdef_spec.sum (map (fun k => p d (e k) * p d (e k)) l) =
    Cdef_spec.sum (map (fun k => Cdef_spec.partial x d (e k) * Cdef_spec.partial x d (e k)) l))
    by (intros; apply E; intros; now rewrite !Hp by lia).
  assert (Et : forall d n (t : Z -> Z) l, 0 <= d < 8 ->
    Cdef_spec.sum (map (fun k => (p d k * p d k + p d (n - k) * p d (n - k)) * t k) l) =
    Cdef_spec.sum (map (fun k => (Cdef_spec.partial x d k * Cdef_spec.partial x d k
      + Cdef_spec.partial x d (n - k) * Cdef_spec.partial x d (n - k)) * t k) l))
    by (intros; apply E; intros; now rewrite !Hp by lia).
  pose proof (Es d (fun k => k) (Cdef_spec.range 8) Hd) as E1.
  pose proof (Es d (fun k => 3 + k) (Cdef_spec.range 5) Hd) as E2.
  pose proof (Et d 14 (fun k => idx CDEF_DIV_TABLE (k + 1)) (Cdef_spec.range 7) Hd) as E3.
  pose proof (Et d 10 (fun k => idx CDEF_DIV_TABLE (2 * k + 2)) (Cdef_spec.range 3) Hd) as E4.
  cbv beta in E1, E2, E3, E4. rewrite <- E1, <- E2, <- E3, <- E4, <- !Hp by lia.
  clear - Hc.
  destruct Hc as [->|[->|[->|[->|[->|[->|[->| ->]]]]]]]; cbn [Z.eqb Pos.eqb orb]; lia.
Qed.

(** ** Ranges *)
Lemma sum_cons a l : Cdef_spec.sum (a :: l) = a + Cdef_spec.sum l. Proof. reflexivity. Qed.
Lemma sum_nil : Cdef_spec.sum [] = 0. Proof. reflexivity. Qed.
Lemma sum_map_bound {A} (f : A -> Z) (b : A -> Z) l : (forall a, In a l -> Z.abs (f a) <= b a) ->
  Z.abs (Cdef_spec.sum (map f l)) <= Cdef_spec.sum (map b l).
Proof.
  induction l as [|a l IH]; intros H; cbn [map]; rewrite ?sum_cons, ?sum_nil; [lia|].
  pose proof (H a (or_introl eq_refl)). specialize (IH (fun c Hc => H c (or_intror Hc))). lia.
Qed.

(* the number of samples on a line *)
Definition line_len (d k : Z) : Z := Cdef_spec.partial (fun _ _ => 1) d k.

Lemma partial_bound x d k : (forall i j, 0 <= i < 8 -> 0 <= j < 8 -> Z.abs (x i j) <= 128) ->
  Z.abs (Cdef_spec.partial x d k) <= 128 * line_len d k.
Proof.
  intros Hx. unfold line_len, Cdef_spec.partial.
  set (l := list_prod (Cdef_spec.range 8) (Cdef_spec.range 8)).
  rewrite (sum_map_bound _ (fun ij => if Cdef_spec.line_of d (fst ij) (snd ij) =? k then 128 else 0)).
  - clear. induction l as [|a l IH]; cbn [map]; rewrite ?sum_cons, ?sum_nil; [lia|].
    destruct (_ =? k); lia.
  - intros [i j] Hij. unfold l in Hij. apply in_prod_iff in Hij. cbn [fst snd].
    assert (Hr : forall a, In a (Cdef_spec.range 8) -> 0 <= a < 8).
    { intros a Ha. rewrite range8 in Ha. cbn in Ha. lia. }
    destruct Hij as [Hi Hj]. apply Hr in Hi, Hj. specialize (Hx i j Hi Hj).
    destruct (_ =? k); cbn; lia.
Qed.

Lemma sq_bound x d k n : (forall i j, 0 <= i < 8 -> 0 <= j < 8 -> Z.abs (x i j) <= 128) ->
  line_len d k = n -> 0 <= Cdef_spec.sq x d k <= 16384 * (n * n).
Proof.
  intros Hx Hn. pose proof (partial_bound x d k Hx) as H. rewrite Hn in H. unfold Cdef_spec.sq. nia.
Qed.

Lemma cost_bound x d : (forall i j, 0 <= i < 8 -> 0 <= j < 8 -> Z.abs (x i j) <= 128) -> 0 <= d < 8 ->
  0 <= Cdef_spec.cost x d <= 880803840.
Proof.
  intros Hx Hd.
  assert (Hb : forall k, 0 <= Cdef_spec.sq x d k <= 16384 * (line_len d k * line_len d k))
    by (intros; now apply sq_bound).
  unfold Cdef_spec.cost. rewrite range8.
  change (Cdef_spec.range 7) with [0; 1; 2; 3; 4; 5; 6].
  change (Cdef_spec.range 5) with [0; 1; 2; 3; 4]. change (Cdef_spec.range 3) with [0; 1; 2].
  assert (Hc : d = 0 \/ d = 1 \/ d = 2 \/ d = 3 \/ d = 4 \/ d = 5 \/ d = 6 \/ d = 7) by lia.
  destruct Hc as [->|[->|[->|[->|[->|[->|[->| ->]]]]]]]; cbn [Z.eqb Pos.eqb orb];
    unfold Cdef_spec.sum; cbn [fold_right map];
    repeat match goal with |- context [Cdef_spec.div_table ?e] =>
      let v := eval vm_compute in (Cdef_spec.div_table e) in change (Cdef_spec.div_table e) with v end;
    repeat match goal with |- context [Cdef_spec.sq x ?d ?e] =>
      let v := eval vm_compute in (16384 * (line_len d e * line_len d e)) in
      let H := fresh in
      assert (H : 0 <= Cdef_spec.sq x d e <= v) by exact (Hb e);
      generalize dependent (Cdef_spec.sq x d e); intros end;
    lia.
Qed.

(** ** The search *)
Lemma first_max_spec c : (0 <= c 0) ->
  first_max_element (map c (zrange 0 8)) =
  (let b := fold_left (fun bc d => if fst bc <? c d then (c d, d) else bc) (Cdef_spec.range 8) (0, 0) in
   (snd b, fst b)).
Proof.
  intros H0. rewrite range8, zrange8. unfold first_max_element.
  change (zlen (map c [0; 1; 2; 3; 4; 5; 6; 7])) with 8. rewrite zrange8. cbn [map combine].
  assert (E0 : (if 0 <? c 0 then (c 0, 0) else (0, 0)) = (c 0, 0))
    by (destruct (Z.ltb_spec 0 (c 0)); f_equal; lia).
  match goal with |- context [fold_left ?g [0; 1; 2; 3; 4; 5; 6; 7] (0, 0)] =>
    change (fold_left g [0; 1; 2; 3; 4; 5; 6; 7] (0, 0))
      with (fold_left g [1; 2; 3; 4; 5; 6; 7] (if 0 <? c 0 then (c 0, 0) else (0, 0))) end.
  rewrite E0.
  assert (S : forall (b : Z * Z) i, fst b < i ->
    (if key_le (snd b) (- fst b) (c i) (- i) then (i, c i) else b) =
    (let b' := (if snd b <? c i then (c i, i) else (snd b, fst b)) in (snd b', fst b'))).
  { intros [bi bv] i Hi. cbn [fst snd] in *. unfold key_le.
    destruct (Z.ltb_spec bv (c i)); cbn [orb andb fst snd]; [reflexivity|].
    rewrite (proj2 (Z.leb_gt (- bi) (- i))) by lia. rewrite andb_false_r. reflexivity. }
  assert (L : forall l (b : Z * Z), (forall i, In i l -> fst b < i) -> StronglySorted Z.lt l ->
    fold_left (fun b e => if key_le (snd b) (- fst b) (snd e) (- fst e) then e else b) (map (fun i => (i, c i)) l) b =
    (let b' := fold_left (fun bc d => if fst bc <? c d then (c d, d) else bc) l (snd b, fst b) in (snd b', fst b'))).
  { clear - S. induction l as [|i l IH]; intros b Hb Hs; cbn [fold_left map fst snd]; [now destruct b|].
    inversion Hs; subst. rewrite Forall_forall in H2.
    rewrite IH; [|intros k Hk|assumption].
    - rewrite S by (apply Hb; now left). cbv zeta.
      destruct (snd b <? c i); reflexivity.
    - rewrite S by (apply Hb; now left). cbv zeta. destruct (snd b <? c i); cbn [fst snd].
      + now apply H2.
      + apply Hb. now right. }
  refine (L [1; 2; 3; 4; 5; 6; 7] (0, c 0) _ _).
  - intros i Hi. cbn in Hi |- *. lia.
  - repeat constructor; lia.
Qed.

Definition image_ok (img : Z -> Z -> Z) (cs : Z) : Prop :=
  forall i j, 0 <= i < 8 -> 0 <= j < 8 -> 0 <= img i j < 2 ^ (8 + cs).

Lemma sample_bound img cs i j : 0 <= cs -> image_ok img cs -> 0 <= i < 8 -> 0 <= j < 8 ->
  Z.abs (sample img cs i j) <= 128.
Proof.
  intros Hcs H Hi Hj. specialize (H i j Hi Hj). unfold sample. rewrite Z.pow_add_r in H by lia.
  assert (0 <= img i j / 2 ^ cs < 2 ^ 8).
  { split; [apply Z.div_pos; lia|]. apply Z.div_lt_upper_bound; lia. }
  lia.
Qed.

Lemma best_in x : 0 <= snd (Cdef_spec.best x) < 8.
Proof.
  unfold Cdef_spec.best. rewrite range8. cbn [fold_left].
  assert (S : forall (b : Z * Z) i, 0 <= snd b < 8 -> 0 <= i < 8 ->
    0 <= snd (if fst b <? Cdef_spec.cost x i then (Cdef_spec.cost x i, i) else b) < 8)
    by (intros b i Hb Hi; destruct (_ <? _); cbn [snd]; lia).
  repeat (apply S; [|lia]). cbn. lia.
Qed.

Lemma fold_left_ext_in {A B} (f g : A -> B -> A) l : (forall a b, In b l -> f a b = g a b) ->
  forall a, fold_left f l a = fold_left g l a.
Proof.
  induction l as [|b l IH]; intros H a; cbn; [reflexivity|].
  rewrite H by now left. apply IH. intros; apply H; now right.
Qed.

Lemma find_dir_spec img cs : 0 <= cs -> image_ok img cs ->
  cdef_find_dir img cs = (Cdef_spec.yDir (sample img cs), Cdef_spec.var (sample img cs)).
Proof.
  intros Hcs H. unfold cdef_find_dir. cbv zeta.
  assert (Hc : forall d, 0 <= d < 8 -> costs (partials img cs) d = Cdef_spec.cost (sample img cs) d).
  { apply costs_spec. now apply partials_spec. }
  set (c := costs (partials img cs)) in *.
  assert (Hb : fold_left (fun bc d => if fst bc <? c d then (c d, d) else bc) (Cdef_spec.range 8) (0, 0)
               = Cdef_spec.best (sample img cs)).
  { unfold Cdef_spec.best. apply fold_left_ext_in.
    intros a d Hd. rewrite range8 in Hd. rewrite Hc by (cbn in Hd; lia). reflexivity. }
  rewrite first_max_spec; [rewrite Hb|].
  - cbv zeta. unfold Cdef_spec.var, Cdef_spec.yDir.
    rewrite Z.shiftr_div_pow2 by lia. rewrite Hc; [reflexivity|].
    change 7 with (Z.ones 3). rewrite Z.land_ones by lia. apply Z.mod_pos_bound. lia.
  - rewrite Hc by lia. pose proof (cost_bound (sample img cs) 0). apply H0; [|lia].
    intros. now apply sample_bound.
Qed.

(* every cost and partial sum fits in an i32, and the variance is a small natural number *)
Lemma best_max x d : 0 <= d < 8 -> Cdef_spec.cost x d <= fst (Cdef_spec.best x).
Proof.
  intros Hd. unfold Cdef_spec.best.
  assert (L : forall l (b : Z * Z), fst b <= fst (fold_left (fun bc d => if fst bc <? Cdef_spec.cost x d
      then (Cdef_spec.cost x d, d) else bc) l b) /\ (In d l -> Cdef_spec.cost x d <=
      fst (fold_left (fun bc d => if fst bc <? Cdef_spec.cost x d then (Cdef_spec.cost x d, d) else bc) l b))).
  { induction l as [|i l IH]; intros b; cbn [fold_left]; [split; [lia|easy]|].
    destruct (IH (if fst b <? Cdef_spec.cost x i then (Cdef_spec.cost x i, i) else b)) as [I1 I2].
    assert (G : fst b <= fst (if fst b <? Cdef_spec.cost x i then (Cdef_spec.cost x i, i) else b) /\
                Cdef_spec.cost x i <= fst (if fst b <? Cdef_spec.cost x i then (Cdef_spec.cost x i, i) else b))
      by (destruct (Z.ltb_spec (fst b) (Cdef_spec.cost x i)); cbn [fst]; lia).
    split; [lia|]. intros [->|Hin]; [lia|auto]. }
  apply L. rewrite range8. cbn. lia.
Qed.

Lemma best_cost_bound x : (forall i j, 0 <= i < 8 -> 0 <= j < 8 -> Z.abs (x i j) <= 128) ->
  0 <= fst (Cdef_spec.best x) <= 880803840.
Proof.
  intros Hx. split.
  - pose proof (best_max x 0). pose proof (cost_bound x 0 Hx). lia.
  - unfold Cdef_spec.best.
    assert (L : forall l (b : Z * Z), (forall d, In d l -> 0 <= d < 8) -> fst b <= 880803840 ->
      fst (fold_left (fun bc d => if fst bc <? Cdef_spec.cost x d then (Cdef_spec.cost x d, d) else bc) l b) <= 880803840).
    { induction l as [|i l IH]; intros b Hl Hb; cbn [fold_left]; [assumption|].
      apply IH; [intros; apply Hl; now right|].
      destruct (_ <? _); cbn [fst]; [|assumption]. apply cost_bound; [assumption|]. apply Hl; now left. }
    apply L; [|cbn; lia]. intros d Hd. rewrite range8 in Hd. cbn in Hd. lia.
Qed.

Lemma var_range x : (forall i j, 0 <= i < 8 -> 0 <= j < 8 -> Z.abs (x i j) <= 128) ->
  0 <= Cdef_spec.var x <= 860160.
Proof.
  intros Hx. unfold Cdef_spec.var.
  assert (Hr : 0 <= Z.land (Cdef_spec.yDir x + 4) 7 < 8).
  { change 7 with (Z.ones 3). rewrite Z.land_ones by lia. apply Z.mod_pos_bound. lia. }
  pose proof (best_max x _ Hr). pose proof (best_cost_bound x Hx). pose proof (cost_bound x _ Hx Hr).
  split; [apply Z.div_pos; lia|]. apply Z.div_le_upper_bound; lia.
Qed.

(** ** The direction only depends on the samples *)
Lemma dir_ext x x' : (forall i j, x i j = x' i j) ->
  Cdef_spec.yDir x = Cdef_spec.yDir x' /\ Cdef_spec.var x = Cdef_spec.var x'.
Proof.
  intros H.
  assert (P : forall d k, Cdef_spec.sq x d k = Cdef_spec.sq x' d k).
  { intros d k. unfold Cdef_spec.sq.
    assert (E : Cdef_spec.partial x d k = Cdef_spec.partial x' d k).
    { unfold Cdef_spec.partial. f_equal. apply map_ext. intros a. now rewrite H. }
    now rewrite E. }
  assert (C : forall d, Cdef_spec.cost x d = Cdef_spec.cost x' d).
  { intros d. unfold Cdef_spec.cost. rewrite P.
    rewrite (map_ext (Cdef_spec.sq x d) (Cdef_spec.sq x' d)) by apply P.
    rewrite (map_ext (fun i => (Cdef_spec.sq x d i + Cdef_spec.sq x d (14 - i)) * Cdef_spec.div_table (i + 1))
      (fun i => (Cdef_spec.sq x' d i + Cdef_spec.sq x' d (14 - i)) * Cdef_spec.div_table (i + 1))) by (intros; now rewrite !P).
    rewrite (map_ext (fun j => Cdef_spec.sq x d (3 + j)) (fun j => Cdef_spec.sq x' d (3 + j))) by (intros; now rewrite !P).
    rewrite (map_ext (fun j => (Cdef_spec.sq x d j + Cdef_spec.sq x d (10 - j)) * Cdef_spec.div_table (2 * j + 2))
      (fun j => (Cdef_spec.sq x' d j + Cdef_spec.sq x' d (10 - j)) * Cdef_spec.div_table (2 * j + 2))) by (intros; now rewrite !P).
    reflexivity. }
  assert (B : Cdef_spec.best x = Cdef_spec.best x').
  { unfold Cdef_spec.best. apply fold_left_ext_in. intros a d _. now rewrite C. }
  unfold Cdef_spec.var, Cdef_spec.yDir. rewrite B, C. split; reflexivity.
Qed.
