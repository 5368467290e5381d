(** The order in which [deblock_plane] filters the edges gives the result of filtering
    all vertical edges first. *)
From Verif Require Import Deblock_model.
Open Scope Z_scope.
Open Scope list_scope.

Definition peq (p q : plane) : Prop := forall r c, p r c = q r c.
Lemma peq_refl p : peq p p. Proof. intros r c. reflexivity. Qed.
Lemma peq_sym p q : peq p q -> peq q p. Proof. intros H r c. symmetry. apply H. Qed.
Lemma peq_trans p q r : peq p q -> peq q r -> peq p r.
Proof. intros H1 H2 i j. rewrite H1. apply H2. Qed.

Lemma deblock_inner_ext size v w level bd :
  (forall i, 0 <= i < size -> v i = w i) -> deblock_inner size v level bd = deblock_inner size w level bd.
Proof.
  intros E. unfold deblock_inner.
  destruct (Z.eqb_spec size 4) as [->|]; [rewrite !E by lia; reflexivity|].
  destruct (Z.eqb_spec size 6) as [->|]; [rewrite !E by lia; reflexivity|].
  destruct (Z.eqb_spec size 8) as [->|]; [rewrite !E by lia; reflexivity|].
  destruct (Z.eqb_spec size 14) as [->|]; [rewrite !E by lia; reflexivity|]. reflexivity.
Qed.
Lemma deblock_line_ext tbits size v w level bd i :
  (forall i, 0 <= i < size -> v i = w i) -> 0 <= i < size ->
  deblock_line tbits size v level bd i = deblock_line tbits size w level bd i.
Proof. intros E I. unfold deblock_line. rewrite (deblock_inner_ext size v w) by exact E. rewrite (E i I). reflexivity. Qed.

Definition isV (e : edge) : bool := match e with VE _ _ => true | HE _ _ => false end.
Definition isH (e : edge) : bool := negb (isV e).

Section Order.
Variables (d : deblock_state) (blocks : Z -> Z -> block) (pli bd tbits xdec ydec : Z).
Notation fv := (filter_v_edge d blocks pli bd tbits xdec ydec).
Notation fh := (filter_h_edge d blocks pli bd tbits xdec ydec).
Notation fe := (filter_edge d blocks pli bd tbits xdec ydec).
Notation vsz := (v_size blocks pli xdec ydec).
Notation hsz := (h_size blocks pli xdec ydec).

(** sizes are at most 14: 7 pixels on each side *)
Lemma v_size_le x y : vsz x y <= 14.
Proof. unfold v_size. destruct (_ =? 0); [|lia]. unfold deblock_size. destruct (negb _); [lia|]. destruct (pli =? 0); lia. Qed.
Lemma h_size_le x y : hsz x y <= 14.
Proof. unfold h_size. destruct (_ =? 0); [|lia]. unfold deblock_size. destruct (negb _); [lia|]. destruct (pli =? 0); lia. Qed.

Lemma bool_iff (a b c e : bool) : (a && b && c && e = true) <-> (a = true /\ b = true /\ c = true /\ e = true).
Proof. rewrite !andb_true_iff. tauto. Qed.

Lemma fv_ext x y p q : peq p q -> peq (fv x y p) (fv x y q).
Proof.
  intros E r c. unfold filter_v_edge. destruct ((0 <? vsz x y) && _); [|apply E].
  cbv zeta. destruct (_ && _ && _ && _) eqn:C; [|apply E].
  apply bool_iff in C as (C1 & C2 & C3 & C4). apply Z.leb_le in C3. apply Z.ltb_lt in C4.
  apply deblock_line_ext; [|lia]. intros i _. apply E.
Qed.
Lemma fh_ext x y p q : peq p q -> peq (fh x y p) (fh x y q).
Proof.
  intros E r c. unfold filter_h_edge. destruct ((0 <? hsz x y) && _); [|apply E].
  cbv zeta. destruct (_ && _ && _ && _) eqn:C; [|apply E].
  apply bool_iff in C as (C1 & C2 & C3 & C4). apply Z.leb_le in C3. apply Z.ltb_lt in C4.
  apply deblock_line_ext; [|lia]. intros i _. apply E.
Qed.
Lemma fe_ext e p q : peq p q -> peq (fe p e) (fe q e).
Proof. destruct e; cbn [filter_edge]; [apply fv_ext|apply fh_ext]. Qed.
Lemma fold_ext l p q : peq p q -> peq (fold_left fe l p) (fold_left fe l q).
Proof. revert p q. induction l as [|e l IH]; cbn [fold_left]; intros p q E; [exact E|]. apply IH, fe_ext, E. Qed.

(** ** Edges whose pixels do not meet commute *)
Definition apart (hx hy vx vy : Z) : Prop :=
  let X := Z.shiftr vx xdec in let Y := Z.shiftr vy ydec in
  let X' := Z.shiftr hx xdec in let Y' := Z.shiftr hy ydec in
  Y' + 2 <= Y \/ X' + 3 <= X.
Lemma commute hx hy vx vy p : apart hx hy vx vy -> peq (fv vx vy (fh hx hy p)) (fh hx hy (fv vx vy p)).
Proof.
  intros A r c. unfold apart in A. cbv zeta in A.
  unfold filter_v_edge, filter_h_edge.
  destruct ((0 <? vsz vx vy) && _) eqn:V; [|reflexivity].
  destruct ((0 <? hsz hx hy) && _) eqn:H; [|reflexivity].
  apply andb_true_iff in V as [V _]. apply andb_true_iff in H as [H _]. apply Z.ltb_lt in V, H.
  pose proof (v_size_le vx vy) as VL. pose proof (h_size_le hx hy) as HL.
  set (n := vsz vx vy) in *. set (m := hsz hx hy) in *. cbv zeta.
  set (lv := v_level _ _ _ _ _ _ _). set (lh := h_level _ _ _ _ _ _ _). clearbody lv lh.
  rewrite !Z.shiftl_mul_pow2 by lia. change (2 ^ 2) with 4.
  set (X := Z.shiftr vx xdec) in *. set (Y := Z.shiftr vy ydec) in *.
  set (X' := Z.shiftr hx xdec) in *. set (Y' := Z.shiftr hy ydec) in *.
  assert (N2 : 0 <= Z.shiftr n 1 <= 7). { rewrite Z.shiftr_div_pow2 by lia. change (2 ^ 1) with 2. dlia. }
  assert (N3 : n <= Z.shiftr n 1 + 7). { rewrite Z.shiftr_div_pow2 by lia. change (2 ^ 1) with 2. dlia. }
  assert (M2 : 0 <= Z.shiftr m 1 <= 7). { rewrite Z.shiftr_div_pow2 by lia. change (2 ^ 1) with 2. dlia. }
  assert (M3 : m <= Z.shiftr m 1 + 7). { rewrite Z.shiftr_div_pow2 by lia. change (2 ^ 1) with 2. dlia. }
  destruct ((Y * 4 <=? r) && (r <? Y * 4 + 4) && (X * 4 - Z.shiftr n 1 <=? c) && (c <? X * 4 - Z.shiftr n 1 + n)) eqn:C.
  - apply bool_iff in C as (C1 & C2 & C3 & C4).
    rewrite ?Z.leb_le, ?Z.ltb_lt in C1, C2, C3, C4.
    replace ((X' * 4 <=? c) && (c <? X' * 4 + 4) && (Y' * 4 - Z.shiftr m 1 <=? r) && (r <? Y' * 4 - Z.shiftr m 1 + m)) with false
      by (symmetry; apply not_true_is_false; rewrite bool_iff, !Z.leb_le, !Z.ltb_lt; lia).
    apply deblock_line_ext; [|lia]. intros i I.
    replace ((X' * 4 <=? X * 4 - Z.shiftr n 1 + i) && (X * 4 - Z.shiftr n 1 + i <? X' * 4 + 4) && (Y' * 4 - Z.shiftr m 1 <=? r) && (r <? Y' * 4 - Z.shiftr m 1 + m)) with false
      by (symmetry; apply not_true_is_false; rewrite bool_iff, !Z.leb_le, !Z.ltb_lt; lia).
    reflexivity.
  - destruct ((X' * 4 <=? c) && (c <? X' * 4 + 4) && (Y' * 4 - Z.shiftr m 1 <=? r) && (r <? Y' * 4 - Z.shiftr m 1 + m)) eqn:C'; [|reflexivity].
    apply bool_iff in C' as (C1 & C2 & C3 & C4).
    rewrite ?Z.leb_le, ?Z.ltb_lt in C1, C2, C3, C4.
    apply deblock_line_ext; [|lia]. intros i I.
    replace ((Y * 4 <=? Y' * 4 - Z.shiftr m 1 + i) && (Y' * 4 - Z.shiftr m 1 + i <? Y * 4 + 4) && (X * 4 - Z.shiftr n 1 <=? c) && (c <? X * 4 - Z.shiftr n 1 + n)) with false
      by (symmetry; apply not_true_is_false; rewrite bool_iff, !Z.leb_le, !Z.ltb_lt; lia).
    reflexivity.
Qed.

(** ** Sorting a list of edges *)
Definition fine (a b : edge) : Prop :=
  match a, b with HE hx hy, VE vx vy => apart hx hy vx vy | _, _ => True end.
Inductive pairs : list edge -> Prop :=
| pairs_nil : pairs []
| pairs_cons e l : Forall (fine e) l -> pairs l -> pairs (e :: l).
Lemma pairs_app l1 l2 : pairs l1 -> pairs l2 -> (forall a b, In a l1 -> In b l2 -> fine a b) -> pairs (l1 ++ l2).
Proof.
  induction 1 as [|e l F P IH]; cbn [app]; intros P2 C; [exact P2|].
  constructor.
  - apply Forall_app. split; [exact F|]. apply Forall_forall. intros b I. apply C; [left; reflexivity|exact I].
  - apply IH; [exact P2|]. intros a b Ia Ib. apply C; [right; exact Ia|exact Ib].
Qed.
Lemma move_h hx hy l p : Forall (fine (HE hx hy)) l ->
  peq (fold_left fe (filter isV l) (fh hx hy p)) (fh hx hy (fold_left fe (filter isV l) p)).
Proof.
  revert p. induction l as [|[x y|x y] l IH]; intros p F; cbn [filter isV fold_left]; [apply peq_refl| |];
    apply Forall_cons_iff in F as [F1 F2].
  - cbn [filter_edge]. eapply peq_trans; [apply fold_ext, commute, F1|]. apply IH, F2.
  - apply IH, F2.
Qed.
Lemma sorted_fold l p : pairs l ->
  peq (fold_left fe l p) (fold_left fe (filter isH l) (fold_left fe (filter isV l) p)).
Proof.
  intros P. revert p. induction P as [|[x y|x y] l F P IH]; intros p; cbn [filter isV isH negb fold_left].
  - apply peq_refl.
  - cbn [filter_edge]. apply IH.
  - cbn [filter_edge]. eapply peq_trans; [apply IH|]. apply fold_ext. apply move_h, F.
Qed.
End Order.

(** ** The list of edges of [deblock_plane] *)
Lemma in_steps a b dec x : dec = 0 \/ dec = 1 ->
  In x (steps a b dec) <-> exists i, 0 <= i /\ x = a + i * Z.shiftl 1 dec /\ x < b.
Proof.
  intros D. unfold steps. set (s := Z.shiftl 1 dec). assert (S0 : 0 < s) by (destruct D as [->| ->]; cbn; lia).
  rewrite in_map_iff. split.
  - intros (i & <- & I). apply in_seq in I. exists (Z.of_nat i). split; [lia|]. split; [reflexivity|].
    assert (Z.of_nat i < (b - a + s - 1) / s) by lia. pose proof (Z.mul_div_le (b - a + s - 1) s S0). nia.
  - intros (i & I & -> & L). exists (Z.to_nat i). split; [rewrite Z2Nat.id by lia; reflexivity|]. apply in_seq. split; [lia|].
    enough (i < (b - a + s - 1) / s) by lia.
    apply Z.lt_le_trans with (i + 1); [lia|]. apply Z.div_le_lower_bound; lia.
Qed.
Lemma steps_nil a b dec : dec = 0 \/ dec = 1 -> b <= a -> steps a b dec = [].
Proof.
  intros D L. unfold steps. set (s := Z.shiftl 1 dec). assert (S0 : 0 < s) by (destruct D as [->| ->]; cbn; lia).
  replace (Z.to_nat ((b - a + s - 1) / s)) with 0%nat; [reflexivity|].
  assert ((b - a + s - 1) / s < 1) by (apply Z.div_lt_upper_bound; lia). lia.
Qed.
Lemma steps_cons a b dec : dec = 0 \/ dec = 1 -> a < b -> steps a b dec = a :: steps (a + Z.shiftl 1 dec) b dec.
Proof.
  intros D L. unfold steps. set (s := Z.shiftl 1 dec). assert (S0 : 0 < s) by (destruct D as [->| ->]; cbn; lia).
  replace (Z.to_nat ((b - a + s - 1) / s)) with (S (Z.to_nat ((b - (a + s) + s - 1) / s))).
  - cbn [seq map]. f_equal; [lia|]. rewrite <- seq_shift, map_map. apply map_ext. intros i. lia.
  - replace (b - a + s - 1) with (b - (a + s) + s - 1 + 1 * s) by lia. rewrite Z.div_add by lia.
    assert (0 <= (b - (a + s) + s - 1) / s) by (apply Z.div_pos; lia). lia.
Qed.
Lemma steps_snoc a b dec n : dec = 0 \/ dec = 1 -> 0 <= n -> b = a + n * Z.shiftl 1 dec ->
  steps a (b + Z.shiftl 1 dec) dec = steps a b dec ++ [b].
Proof.
  intros D N ->. unfold steps. set (s := Z.shiftl 1 dec). assert (S0 : 0 < s) by (destruct D as [->| ->]; cbn; lia).
  replace ((a + n * s + s - a + s - 1) / s) with (n + 1) by (apply Z.div_unique with (s - 1); lia).
  replace ((a + n * s - a + s - 1) / s) with n by (apply Z.div_unique with (s - 1); lia).
  replace (Z.to_nat (n + 1)) with (Z.to_nat n + 1)%nat by lia. rewrite seq_app, map_app. cbn [seq map]. f_equal. f_equal. lia.
Qed.
(* steps shifted *)
Lemma steps_shift a b k dec : steps (a + k) (b + k) dec = map (fun x => x + k) (steps a b dec).
Proof. unfold steps. rewrite map_map. replace (b + k - (a + k)) with (b - a) by lia. apply map_ext. intros. lia. Qed.

Section List.
Variables (xdec ydec : Z).
Hypothesis (DX : xdec = 0 \/ xdec = 1) (DY : ydec = 0 \/ ydec = 1).
Let sx := Z.shiftl 1 xdec.
Let sy := Z.shiftl 1 ydec.
Local Lemma SX : sx = 2 ^ xdec /\ 0 < sx.
Proof. unfold sx. rewrite Z.shiftl_mul_pow2 by lia. destruct DX as [->| ->]; cbn; lia. Qed.
Local Lemma SY : sy = 2 ^ ydec /\ 0 < sy.
Proof. unfold sy. rewrite Z.shiftl_mul_pow2 by lia. destruct DY as [->| ->]; cbn; lia. Qed.

Definition row_mid (cols y : Z) : list edge :=
  (if sx <? cols then [VE sx y] else []) ++
  flat_map (fun x => [VE x y; HE (x - 2 * sx) (y - sy)]) (steps (2 * sx) cols xdec) ++
  (if 2 * sx <=? cols then [HE (cols - 2 * sx) (y - sy)] else []) ++
  (if sx <=? cols then [HE (cols - sx) (y - sy)] else []).

Variables (cols rows : Z) (nc nr : Z).
Hypothesis (HC : cols = nc * sx) (HR : rows = nr * sy) (NC : 0 <= nc) (NR : 0 <= nr).

Lemma filter_flat_map {A} f (g : A -> list edge) l : filter f (flat_map g l) = flat_map (fun x => filter f (g x)) l.
Proof. induction l as [|a l IH]; cbn [flat_map]; [reflexivity|]. rewrite filter_app, IH. reflexivity. Qed.
Lemma flat_map_single {A B} (f : A -> B) l : flat_map (fun x => [f x]) l = map f l.
Proof. induction l as [|a l IH]; cbn [flat_map map app]; congruence. Qed.

Lemma row_mid_v y : filter isV (row_mid cols y) = map (fun x => VE x y) (steps sx cols xdec).
Proof.
  unfold row_mid. rewrite !filter_app, filter_flat_map. cbn [filter isV].
  rewrite flat_map_single. destruct SX as [_ S].
  replace (filter isV (if 2 * sx <=? cols then _ else _)) with (@nil edge) by (destruct (2 * sx <=? cols); reflexivity).
  replace (filter isV (if sx <=? cols then _ else _)) with (@nil edge) by (destruct (sx <=? cols); reflexivity).
  rewrite !app_nil_r. destruct (Z.ltb_spec sx cols).
  - rewrite (steps_cons sx cols) by (exact DX || lia). fold sx. cbn [filter isV map app]. f_equal. f_equal. f_equal. lia.
  - rewrite !steps_nil by (exact DX || lia). reflexivity.
Qed.
Lemma row_mid_h y : filter isH (row_mid cols y) = map (fun x => HE x (y - sy)) (steps 0 cols xdec).
Proof.
  unfold row_mid. rewrite !filter_app, filter_flat_map. unfold isH. cbn [filter isV negb].
  rewrite flat_map_single. destruct SX as [_ S].
  replace (filter _ (if sx <? cols then _ else _)) with (@nil edge) by (destruct (sx <? cols); reflexivity). cbn [app].
  rewrite <- (map_map (fun x => x - 2 * sx) (fun x => HE x (y - sy))).
  destruct (Z.leb_spec (2 * sx) cols).
  - replace (sx <=? cols) with true by (symmetry; apply Z.leb_le; lia). cbn [filter isV negb].
    replace (map (fun x => x - 2 * sx) (steps (2 * sx) cols xdec)) with (steps 0 (cols - 2 * sx) xdec).
    + rewrite app_assoc. change [HE (cols - 2 * sx) (y - sy)] with (map (fun x => HE x (y - sy)) [cols - 2 * sx]).
      rewrite <- map_app. change (map _ (?l ++ _)) with (map (fun x => HE x (y - sy)) (l ++ [cols - 2 * sx])).
      change [HE (cols - sx) (y - sy)] with (map (fun x => HE x (y - sy)) [cols - sx]). rewrite <- map_app. f_equal.
      rewrite <- (steps_snoc 0 (cols - 2 * sx) xdec (nc - 2)) by (exact DX || nia). fold sx.
      replace (cols - 2 * sx + sx) with (cols - sx) by lia.
      rewrite <- (steps_snoc 0 (cols - sx) xdec (nc - 1)) by (exact DX || nia). fold sx. f_equal. lia.
    + replace (2 * sx) with (0 + 2 * sx) at 2 by lia. replace cols with (cols - 2 * sx + 2 * sx) at 2 by lia.
      rewrite steps_shift, map_map. rewrite <- (map_id (steps 0 (cols - 2 * sx) xdec)) at 1. apply map_ext. intros. lia.
  - rewrite (steps_nil (2 * sx)) by (exact DX || lia). cbn [map app].
    destruct (Z.leb_spec sx cols).
    + assert (nc = 1) by nia. assert (E : cols = sx) by nia. cbn [filter isV negb app].
      rewrite (steps_cons 0 cols) by (exact DX || lia). fold sx. rewrite steps_nil by (exact DX || lia).
      cbn [map]. rewrite E. replace (sx - sx) with 0 by lia. reflexivity.
    + assert (nc = 0) by nia; assert (cols = 0) by (rewrite HC; lia). rewrite steps_nil by (exact DX || lia). reflexivity.
Qed.

Notation order := (edge_order xdec ydec cols rows).
Lemma order_v : filter isV order = flat_map (fun y => map (fun x => VE x y) (steps sx cols xdec)) (steps 0 rows ydec).
Proof.
  unfold edge_order. fold sx sy. destruct SY as [_ S].
  rewrite !filter_app, filter_flat_map.
  replace (filter isV (if sy <? rows then map (fun x => HE x _) _ else [])) with (@nil edge).
  2:{ destruct (sy <? rows); [|reflexivity]. induction (steps 0 cols xdec) as [|a l IH]; cbn [map filter isV]; auto. }
  rewrite app_nil_r.
  erewrite flat_map_ext; [|intros y; change (filter isV _) with (filter isV (row_mid cols y)); apply row_mid_v].
  assert (FV : forall y l, filter isV (map (fun x => VE x y) l) = map (fun x => VE x y) l).
  { intros y l. induction l as [|a l IH]; cbn [map filter isV]; congruence. }
  destruct (Z.ltb_spec 0 rows).
  - rewrite (steps_cons 0 rows) by (exact DY || lia). fold sy. cbn [flat_map]. rewrite filter_app, FV, <- app_assoc. f_equal.
    destruct (Z.ltb_spec sy rows).
    + rewrite Z.add_0_l. rewrite (steps_cons sy rows) by (exact DY || lia). fold sy. cbn [flat_map]. rewrite FV. f_equal.
      f_equal. f_equal. lia.
    + rewrite (steps_nil (0 + sy)), (steps_nil (2 * sy)) by (exact DY || lia). reflexivity.
  - rewrite (steps_nil 0), (steps_nil (2 * sy)) by (exact DY || lia). reflexivity.
Qed.
Lemma order_h : filter isH order = flat_map (fun y => map (fun x => HE x y) (steps 0 cols xdec)) (steps sy rows ydec).
Proof.
  unfold edge_order. fold sx sy. destruct SY as [_ S].
  rewrite !filter_app, filter_flat_map.
  assert (NV : forall y l, filter isH (map (fun x => VE x y) l) = []).
  { intros y l. unfold isH. induction l as [|a l IH]; cbn [map filter isV negb]; auto. }
  replace (filter isH (if 0 <? rows then _ else _)) with (@nil edge).
  2:{ destruct (0 <? rows); [|reflexivity]. rewrite filter_app, NV. destruct (sy <? rows); [rewrite NV|]; reflexivity. }
  cbn [app].
  erewrite flat_map_ext; [|intros y; change (filter isH _) with (filter isH (row_mid cols y)); apply row_mid_h].
  assert (FV : forall y l, filter isH (map (fun x => HE x y) l) = map (fun x => HE x y) l).
  { intros y l. unfold isH. induction l as [|a l IH]; cbn [map filter isV negb]; congruence. }
  destruct (Z.ltb_spec sy rows).
  - rewrite FV.
    replace (steps sy rows ydec) with (steps sy (rows - sy) ydec ++ [rows - sy]).
    2:{ rewrite <- (steps_snoc sy (rows - sy) ydec (nr - 2)) by (exact DY || nia). fold sy. f_equal. lia. }
    rewrite flat_map_app. cbn [flat_map]. rewrite app_nil_r. f_equal.
    replace (2 * sy) with (sy + sy) by lia. replace rows with (rows - sy + sy) at 1 by lia.
    rewrite steps_shift. rewrite flat_map_concat_map, map_map, <- flat_map_concat_map.
    apply flat_map_ext. intros y. replace (y + sy - sy) with y by lia. reflexivity.
  - rewrite (steps_nil (2 * sy)), (steps_nil sy) by (exact DY || lia). reflexivity.
Qed.

(** every vertical edge after a horizontal one is apart from it *)
Lemma in_row_mid y e : In e (row_mid cols y) ->
  (exists x, e = VE x y) \/ (exists x, e = HE x (y - sy)).
Proof.
  unfold row_mid. rewrite !in_app_iff, in_flat_map.
  intros [I|[(x & _ & I)|[I|I]]].
  - destruct (sx <? cols); cbn [In] in I; [|contradiction]. destruct I as [<-|[]]. left. eauto.
  - cbn [In] in I. destruct I as [<-|[<-|[]]]; eauto.
  - destruct (2 * sx <=? cols); cbn [In] in I; [|contradiction]. destruct I as [<-|[]]. right. eauto.
  - destruct (sx <=? cols); cbn [In] in I; [|contradiction]. destruct I as [<-|[]]. right. eauto.
Qed.
Lemma pairs_v l : Forall (fun e => isV e = true) l -> pairs xdec ydec l.
Proof. induction 1 as [|[x y|x y] l H F IH]; [constructor|constructor; [apply Forall_forall; intros ? ?; exact I|exact IH]|discriminate]. Qed.
Lemma pairs_h l : Forall (fun e => isV e = false) l -> pairs xdec ydec l.
Proof.
  induction 1 as [|[x y|x y] l H F IH]; [constructor|discriminate|constructor; [|exact IH]].
  eapply Forall_impl; [|exact F]. intros [?|?] E; [discriminate|exact I].
Qed.
Lemma shr_x k : Z.shiftr (k * sx) xdec = k.
Proof. destruct SX as [E S]. rewrite Z.shiftr_div_pow2, <- E by lia. apply Z.div_mul. lia. Qed.
Lemma shr_y k : Z.shiftr (k * sy) ydec = k.
Proof. destruct SY as [E S]. rewrite Z.shiftr_div_pow2, <- E by lia. apply Z.div_mul. lia. Qed.

Lemma row_mid_pairs y : pairs xdec ydec (row_mid cols y).
Proof.
  unfold row_mid. apply pairs_app.
  - destruct (sx <? cols); apply pairs_v; repeat constructor.
  - apply pairs_app.
    + (* the columns from 2 on *)
      enough (G : forall n a, 2 <= a -> steps (a * sx) cols xdec = steps (a * sx) cols xdec -> (Z.to_nat (nc - a) <= n)%nat ->
                pairs xdec ydec (flat_map (fun x => [VE x y; HE (x - 2 * sx) (y - sy)]) (steps (a * sx) cols xdec))).
      { apply (G (Z.to_nat (nc - 2)) 2); lia || reflexivity. }
      destruct SX as [_ S].
      induction n as [|n IH]; intros a A _ L.
      * rewrite steps_nil by (exact DX || nia). constructor.
      * destruct (Z_lt_le_dec a nc).
        2:{ rewrite steps_nil by (exact DX || nia). constructor. }
        rewrite steps_cons by (exact DX || nia). fold sx. cbn [flat_map app].
        replace (a * sx + sx) with ((a + 1) * sx) by lia.
        constructor; [apply Forall_forall; intros ? ?; exact I|].
        constructor; [|apply IH; lia || reflexivity].
        apply Forall_forall. intros e I. apply in_flat_map in I as (x & I & J).
        apply in_steps in I; [|exact DX]. fold sx in I. destruct I as (i & I1 & I2 & I3).
        cbn [In] in J. destruct J as [<-|[<-|[]]]; [|exact I]. cbn [fine]. unfold apart. cbv zeta. right.
        replace (a * sx - 2 * sx) with ((a - 2) * sx) by lia.
        replace x with ((a + 1 + i) * sx) by lia. rewrite !shr_x. lia.
    + apply pairs_h. apply Forall_app. split; [destruct (2 * sx <=? cols)|destruct (sx <=? cols)]; repeat constructor.
    + intros a b Ia Ib. apply in_app_iff in Ib.
      destruct Ib as [Ib|Ib]; [destruct (2 * sx <=? cols)|destruct (sx <=? cols)]; cbn [In] in Ib; try contradiction;
        destruct Ib as [<-|[]]; destruct a; exact I.
  - intros a b Ia Ib. destruct (sx <? cols); cbn [In] in Ia; [|contradiction]. destruct Ia as [<-|[]]. exact I.
Qed.
Lemma order_pairs : pairs xdec ydec order.
Proof.
  unfold edge_order. fold sx sy.
  assert (FV : forall y l, Forall (fun e => isV e = true) (map (fun x => VE x y) l)).
  { intros y l. apply Forall_map. apply Forall_forall. reflexivity. }
  apply pairs_app.
  - destruct (0 <? rows); [|constructor]. apply pairs_v. apply Forall_app. split; [apply FV|].
    destruct (sy <? rows); [apply FV|constructor].
  - apply pairs_app.
    + destruct SY as [_ S].
      enough (G : forall n a, 0 <= a -> (Z.to_nat (nr - a) <= n)%nat ->
                pairs xdec ydec (flat_map (row_mid cols) (steps (a * sy) rows ydec))).
      { apply (G (Z.to_nat (nr - 2)) 2); lia. }
      induction n as [|n IH]; intros a A L.
      * rewrite steps_nil by (exact DY || nia). constructor.
      * destruct (Z_lt_le_dec a nr).
        2:{ rewrite steps_nil by (exact DY || nia). constructor. }
        rewrite steps_cons by (exact DY || nia). fold sy. cbn [flat_map].
        replace (a * sy + sy) with ((a + 1) * sy) by lia.
        apply pairs_app; [apply row_mid_pairs|apply IH; lia|].
        intros e f Ie If. apply in_flat_map in If as (y & If & Jf).
        apply in_steps in If; [|exact DY]. fold sy in If. destruct If as (i & I1 & I2 & I3).
        apply in_row_mid in Ie as [(x1 & ->)|(x1 & ->)]; [exact I|].
        apply in_row_mid in Jf as [(x2 & ->)|(x2 & ->)]; [|exact I].
        cbn [fine]. unfold apart. cbv zeta. left.
        replace (a * sy - sy) with ((a - 1) * sy) by lia. rewrite I2.
        replace ((a + 1) * sy + i * sy) with ((a + 1 + i) * sy) by lia. rewrite !shr_y. lia.
    + destruct (sy <? rows); [|constructor]. apply pairs_h. apply Forall_map. apply Forall_forall. reflexivity.
    + intros a b Ia Ib. destruct (sy <? rows); cbn [In] in Ib; [|contradiction].
      apply in_map_iff in Ib as (x & <- & _). destruct a; exact I.
  - intros a b Ia Ib. assert (VA : isV a = true).
    { destruct (0 <? rows); [|contradiction]. apply in_app_iff in Ia.
      destruct Ia as [Ia|Ia]; [|destruct (sy <? rows); [|contradiction]];
        apply in_map_iff in Ia as (x & <- & _); reflexivity. }
    destruct a; [exact I|discriminate].
Qed.
End List.
