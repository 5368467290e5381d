(** Every scan table is the order of the specification and a permutation. *)
From Verif Require Import Base Config_model Quant_tables Scan_tables Quant_model Quant_proof Quant_spec Quant_sel.

Fixpoint zlist_eqb (a b : list Z) : bool :=
  match a, b with
  | [], [] => true
  | x :: a, y :: b => (x =? y) && zlist_eqb a b
  | _, _ => false
  end.
Lemma zlist_eqb_eq a b : zlist_eqb a b = true -> a = b.
Proof.
  revert b. induction a as [|x a IH]; intros [|y b]; cbn [zlist_eqb]; try congruence.
  rewrite andb_true_iff, Z.eqb_eq. intros [-> H]. f_equal. apply IH, H.
Qed.

(** ** A check that a list of numbers has no repetition, by a binary trie *)
Inductive pset := PL | PN (l : pset) (b : bool) (r : pset).
Fixpoint pmem (p : positive) (t : pset) {struct t} : bool :=
  match t with
  | PL => false
  | PN l b r => match p with xH => b | xO p => pmem p l | xI p => pmem p r end
  end.
Fixpoint pins (p : positive) (t : pset) : pset :=
  match p, t with
  | xH, PL => PN PL true PL
  | xH, PN l _ r => PN l true r
  | xO p, PL => PN (pins p PL) false PL
  | xO p, PN l b r => PN (pins p l) b r
  | xI p, PL => PN PL false (pins p PL)
  | xI p, PN l b r => PN l b (pins p r)
  end.
Lemma pins_same p t : pmem p (pins p t) = true.
Proof. revert t. induction p; intros []; cbn; auto. Qed.
Lemma pins_other p q t : p <> q -> pmem q (pins p t) = pmem q t.
Proof.
  revert q t. induction p; intros [q|q|] [|l b r] N; cbn; try reflexivity;
    try (rewrite IHp by congruence; reflexivity); try congruence.
Qed.
Definition zkey (x : Z) : positive := match x with Zpos p => Pos.succ p | _ => xH end.
Fixpoint nodupb (l : list Z) (t : pset) : bool :=
  match l with
  | [] => true
  | x :: l => if pmem (zkey x) t then false else nodupb l (pins (zkey x) t)
  end.
Lemma zkey_inj x y : 0 <= x -> 0 <= y -> zkey x = zkey y -> x = y.
Proof. destruct x, y; cbn [zkey]; intros; try lia. Qed.
Lemma nodupb_ok l : forall t, Forall (fun x => 0 <= x) l -> nodupb l t = true ->
  NoDup l /\ forall x, In x l -> pmem (zkey x) t = false.
Proof.
  induction l as [|x l IH]; intros t F H.
  - split; [constructor|intros x []].
  - cbn [nodupb] in H. destruct (pmem (zkey x) t) eqn:E; [discriminate|].
    pose proof (Forall_inv F) as Hx. apply Forall_inv_tail in F. cbv beta in Hx.
    destruct (IH _ F H) as [N M]. rewrite Forall_forall in F. split.
    + constructor; [|exact N]. intros I. specialize (M _ I). rewrite pins_same in M. discriminate.
    + intros y [<-|I]; [exact E|]. specialize (M _ I).
      destruct (Pos.eq_dec (zkey x) (zkey y)) as [K|K].
      * rewrite <- K. exact E.
      * rewrite pins_other in M by exact K. exact M.
Qed.

(** ** The distinct tables: sizes and default, row and column orders *)
Definition tables14 : list (Z * Z * (list Z * list Z * list Z)) := [
  (4, 4, (default_scan_4x4, mrow_scan_4x4, mcol_scan_4x4));
  (8, 8, (default_scan_8x8, mrow_scan_8x8, mcol_scan_8x8));
  (16, 16, (default_scan_16x16, mrow_scan_16x16, mcol_scan_16x16));
  (32, 32, (default_scan_32x32, mrow_scan_32x32, mcol_scan_32x32));
  (4, 8, (default_scan_4x8, mrow_scan_4x8, mcol_scan_4x8));
  (8, 4, (default_scan_8x4, mrow_scan_8x4, mcol_scan_8x4));
  (8, 16, (default_scan_8x16, mrow_scan_8x16, mcol_scan_8x16));
  (16, 8, (default_scan_16x8, mrow_scan_16x8, mcol_scan_16x8));
  (16, 32, (default_scan_16x32, mrow_scan_16x32, mcol_scan_16x32));
  (32, 16, (default_scan_32x16, mrow_scan_32x16, mcol_scan_32x16));
  (4, 16, (default_scan_4x16, mrow_scan_4x16, mcol_scan_4x16));
  (16, 4, (default_scan_16x4, mrow_scan_16x4, mcol_scan_16x4));
  (8, 32, (default_scan_8x32, mrow_scan_8x32, mcol_scan_8x32));
  (32, 8, (default_scan_32x8, mrow_scan_32x8, mcol_scan_32x8)) ].
Definition table_of : list nat := [0; 1; 2; 3; 3; 4; 5; 6; 7; 8; 9; 3; 3; 10; 11; 12; 13; 8; 9]%nat.
Definition row_of (x : Z * Z * (list Z * list Z * list Z)) : list (list Z) :=
  let '(_, _, (d, r, c)) := x in [d; d; d; d; d; d; d; d; d; d; r; c; r; c; r; c].
Lemma scan_table_rows : scan_table = map (fun k => row_of (nth k tables14 (0, 0, ([], [], [])))) table_of.
Proof. reflexivity. Qed.
Lemma dims_rows : map (fun p => (coded_dim (fst p), coded_dim (snd p))) tx_dims
  = map (fun k => fst (nth k tables14 (0, 0, ([], [], [])))) table_of.
Proof. reflexivity. Qed.

Definition order_of (w h : Z) (k : Z) : list Z :=
  map (fun p => fst p * h + snd p)
    (if k =? 0 then default_scan w h else if k =? 1 then row_scan w h else col_scan w h).
Definition table_okb (w h k : Z) (s : list Z) : bool :=
  zlist_eqb s (order_of w h k) && (zlen s =? w * h) &&
  forallb (fun x => (0 <=? x) && (x <? w * h)) s && nodupb s PL.
Lemma tables_checked :
  forallb (fun x => let '(w, h, (d, r, c)) := x in
    table_okb w h 0 d && table_okb w h 1 r && table_okb w h 2 c && (w * h <=? 1024)) tables14 = true.
Proof. vm_compute. reflexivity. Qed.

(** ** Inverting a permutation *)
Lemma set_nth_facts {A} (d : A) v l : forall i, (i < length l)%nat ->
  exists l', set_nth l i v = Some l' /\ length l' = length l /\
    forall j, nth j l' d = if (j =? i)%nat then v else nth j l d.
Proof.
  induction l as [|x l IH]; intros i Hi; cbn [length] in Hi; [lia|].
  destruct i as [|i]; cbn [set_nth].
  - exists (v :: l). split; [reflexivity|]. split; [reflexivity|].
    intros [|j]; reflexivity.
  - destruct (IH i ltac:(lia)) as [l' [E [L N]]]. rewrite E. exists (x :: l').
    split; [reflexivity|]. split; [cbn [length]; congruence|].
    intros [|j]; [reflexivity|]. cbn [nth Nat.eqb]. apply N.
Qed.

Lemma invert_loop_facts s : forall k iscan,
  NoDup s -> Forall (fun x => 0 <= x < zlen iscan) s -> 0 <= k -> k + zlen s <= 65536 ->
  exists i, invert_loop k s iscan = Some i /\ length i = length iscan /\
    (forall m, (m < length s)%nat -> nth (Z.to_nat (nth m s 0)) i 0 = k + Z.of_nat m) /\
    (forall p, ~ In (Z.of_nat p) s -> nth p i 0 = nth p iscan 0).
Proof.
  induction s as [|x s IH]; intros k iscan N F Hk HL.
  - exists iscan. split; [reflexivity|]. split; [reflexivity|]. split; [cbn; intros; lia|reflexivity].
  - pose proof (Forall_inv F) as Hx. apply Forall_inv_tail in F. cbv beta in Hx.
    apply NoDup_cons_iff in N. destruct N as [Nx N].
    rewrite zlen_cons in HL. pose proof (zlen_nonneg _ s).
    cbn [invert_loop]. unfold put. replace (0 <=? x) with true by lia.
    destruct (set_nth_facts 0 (u16 k) iscan (Z.to_nat x)) as [i1 [E1 [L1 N1]]]; [unfold zlen in Hx; lia|].
    rewrite E1.
    destruct (IH (k + 1) i1) as [i [E [L [P Q]]]]; [exact N| |lia|lia|].
    { unfold zlen in *. rewrite L1. exact F. }
    exists i. split; [exact E|]. split; [congruence|]. split.
    + intros [|m] Hm; cbn [nth].
      * rewrite Q by (rewrite Z2Nat.id by lia; exact Nx).
        rewrite N1, Nat.eqb_refl, u16_id by lia. lia.
      * rewrite P by (cbn [length] in Hm; lia). lia.
    + intros p Hp. rewrite Q by (intros I; apply Hp; right; exact I).
      rewrite N1. destruct (Nat.eqb_spec p (Z.to_nat x)) as [->|]; [|reflexivity].
      exfalso. apply Hp. left. lia.
Qed.

Lemma nth_upto n k : 0 <= n -> (k < Z.to_nat n)%nat -> nth k (upto n) 0 = Z.of_nat k.
Proof.
  intros Hn Hk. unfold upto. rewrite nth_indep with (d' := Z.of_nat 0) by (rewrite map_length, seq_length; lia). rewrite map_nth, seq_nth by lia. f_equal.
Qed.
Lemma upto_length n : length (upto n) = Z.to_nat n.
Proof. unfold upto. rewrite map_length, seq_length. reflexivity. Qed.

(** [s] and [i] are inverse permutations of the numbers below [n] *)
Definition inverse_perms (n : Z) (s i : list Z) : Prop :=
  zlen s = n /\ zlen i = n /\
  (forall k, (k < length s)%nat -> 0 <= nth k s 0 < n /\ nth (Z.to_nat (nth k s 0)) i 0 = Z.of_nat k) /\
  (forall p, (p < length i)%nat -> 0 <= nth p i 0 < n /\ nth (Z.to_nat (nth p i 0)) s 0 = Z.of_nat p).

Lemma invert_facts s n :
  zlen s = n -> n <= 1024 -> Forall (fun x => 0 <= x < n) s -> NoDup s ->
  exists i, invert s = Some i /\ inverse_perms n s i.
Proof.
  intros L Hn F N. subst n.
  destruct (invert_loop_facts s 0 s N F ltac:(lia) ltac:(lia)) as [i [E [Li [P _]]]].
  exists i. split; [exact E|]. rewrite Forall_forall in F.
  assert (S : forall p, (p < length s)%nat -> exists m, (m < length s)%nat /\ nth m s 0 = Z.of_nat p).
  { intros p Hp.
    assert (I : incl (map Z.of_nat (seq 0 (length s))) s).
    { apply NoDup_length_incl.
      - exact N.
      - rewrite map_length, seq_length. lia.
      - intros x Hx. specialize (F _ Hx). unfold zlen in F. apply in_map_iff.
        exists (Z.to_nat x). split; [lia|apply in_seq; lia]. }
    specialize (I (Z.of_nat p)). rewrite in_map_iff in I.
    specialize (I ltac:(exists p; split; [reflexivity|apply in_seq; lia])).
    apply (In_nth _ _ 0) in I. destruct I as [m [Hm Em]]. exists m. split; assumption. }
  split; [reflexivity|]. split; [unfold zlen; rewrite Li; reflexivity|]. split.
  - intros k Hk. split; [apply F, nth_In, Hk|]. rewrite P by exact Hk. lia.
  - intros p Hp. rewrite Li in Hp. destruct (S p Hp) as [m [Hm Em]].
    pose proof (P m Hm) as Pm. rewrite Em, Nat2Z.id in Pm. rewrite Pm. unfold zlen.
    split; [lia|]. replace (Z.to_nat (0 + Z.of_nat m)) with m by lia. exact Em.
Qed.

Definition kind_of (ty : Z) : Z := if 10 <=? ty then if Z.even ty then 1 else 2 else 0.
Lemma spec_scan_kind w h ty : spec_scan w h ty = order_of (coded_dim w) (coded_dim h) (kind_of ty).
Proof.
  unfold spec_scan, order_of, kind_of. cbv zeta.
  destruct (10 <=? ty); [destruct (Z.even ty)|]; reflexivity.
Qed.

Lemma row_of_kind w h d r c ty : 0 <= ty < 16 ->
  at_ (row_of (w, h, (d, r, c))) ty =
  Some (if kind_of ty =? 0 then d else if kind_of ty =? 1 then r else c).
Proof.
  intros H. unfold at_. replace (0 <=? ty) with true by lia.
  assert (exists k, (k < 16)%nat /\ ty = Z.of_nat k) as [k [Hk ->]]
    by (exists (Z.to_nat ty); lia).
  rewrite Nat2Z.id. do 16 (destruct k as [|k]; [reflexivity|]). lia.
Qed.

Lemma scan_facts t ty w h : 0 <= t < 19 -> 0 <= ty < 16 -> nth_error tx_dims (Z.to_nat t) = Some (w, h) ->
  exists s i, scan_order t ty = Some (s, i) /\ s = spec_scan w h ty /\
    inverse_perms (coded_dim w * coded_dim h) s i.
Proof.
  intros Ht Hty E.
  assert (Hk : exists k, nth_error table_of (Z.to_nat t) = Some k /\ (k < 14)%nat).
  { destruct (nth_error table_of (Z.to_nat t)) as [k|] eqn:Ek.
    - exists k. split; [reflexivity|]. apply nth_error_In in Ek.
      cbn [In table_of] in Ek. lia.
    - apply nth_error_None in Ek. cbn [length table_of] in Ek. lia. }
  destruct Hk as [k [Ek Hk]].
  pose proof (map_nth_error (fun p => (coded_dim (fst p), coded_dim (snd p))) _ _ E) as D.
  rewrite dims_rows, (map_nth_error _ _ _ Ek) in D. cbn [fst snd] in D.
  pose proof tables_checked as C. rewrite forallb_forall in C.
  specialize (C (nth k tables14 (0, 0, ([], [], []))) (nth_In tables14 _ Hk)).
  assert (R : at_ scan_table t = Some (row_of (nth k tables14 (0, 0, ([], [], []))))).
  { unfold at_. replace (0 <=? t) with true by lia. rewrite scan_table_rows.
    exact (map_nth_error (fun k => row_of (nth k tables14 (0, 0, ([], [], [])))) _ _ Ek). }
  destruct (nth k tables14 (0, 0, ([], [], []))) as [[w' h'] [[d r] c]].
  cbn [fst] in D. assert (Dw : w' = coded_dim w) by congruence.
  assert (Dh : h' = coded_dim h) by congruence. clear D. subst w' h'.
  rewrite !andb_true_iff in C. destruct C as [[[C0 C1] C2] Cn].
  unfold scan_order. rewrite R, row_of_kind by exact Hty.
  set (s := if kind_of ty =? 0 then d else if kind_of ty =? 1 then r else c).
  assert (Cs : table_okb (coded_dim w) (coded_dim h) (kind_of ty) s = true).
  { unfold s, kind_of. destruct (10 <=? ty); [destruct (Z.even ty)|]; assumption. }
  clearbody s. clear C0 C1 C2 R d r c. rewrite spec_scan_kind.
  set (n := coded_dim w * coded_dim h) in *. unfold table_okb in Cs. fold n in Cs.
  rewrite !andb_true_iff, Z.eqb_eq, forallb_forall in Cs. destruct Cs as [[[Q1 Q2] Q3] Q4].
  apply zlist_eqb_eq in Q1.
  assert (F : Forall (fun x => 0 <= x < n) s).
  { rewrite Forall_forall. intros x Hx. specialize (Q3 x Hx). lia. }
  destruct (invert_facts s n Q2 ltac:(lia) F) as [i [Ei Pi]].
  { apply (nodupb_ok s PL); [|exact Q4]. rewrite Forall_forall in *. intros x Hx. specialize (F x Hx). lia. }
  rewrite Ei. exists s, i. split; [reflexivity|]. split; [exact Q1|exact Pi].
Qed.
