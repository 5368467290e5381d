(** Quantizer index selection. *)
From Verif Require Import Base Config_model LogExp_model Quant_tables Scan_tables Quant_model Quant_proof Quant_spec.

Lemma at_nth (l : list Z) i : 0 <= i < zlen l -> at_ l i = Some (nth (Z.to_nat i) l 0).
Proof.
  intros H. unfold at_. destruct (Z.leb_spec 0 i) as [_|]; [|lia].
  apply nth_error_nth'. unfold zlen in H. lia.
Qed.

(** ** The tables *)
Definition table_okb (l : list Z) : bool :=
  (zlen l =? 256) && forallb (fun i => nth i l 0 <=? nth (S i) l 0) (seq 0 255) &&
  forallb (fun x => (4 <=? x) && (x <? 32768)) l.
Definition table_ok (l : list Z) : Prop :=
  length l = 256%nat /\ sorted l /\ (forall i, (i < 256)%nat -> 4 <= nth i l 0 < 32768).
Lemma table_okb_ok l : table_okb l = true -> table_ok l.
Proof.
  unfold table_okb. rewrite !andb_true_iff, Z.eqb_eq. intros [[L A] B].
  rewrite forallb_forall in A, B. assert (Ln : length l = 256%nat) by (unfold zlen in L; lia).
  split; [exact Ln|split].
  - intros i j [I J]. induction I as [|j I IH]; [lia|].
    specialize (A j). rewrite in_seq, Z.leb_le in A. specialize (IH ltac:(lia)). specialize (A ltac:(lia)). lia.
  - intros i Hi. specialize (B (nth i l 0)). rewrite andb_true_iff, Z.leb_le, Z.ltb_lt in B. apply B. apply nth_In. lia.
Qed.
Lemma dc8 : table_ok dc_qlookup_Q3. Proof. apply table_okb_ok. vm_compute. reflexivity. Qed.
Lemma dc10 : table_ok dc_qlookup_10_Q3. Proof. apply table_okb_ok. vm_compute. reflexivity. Qed.
Lemma dc12 : table_ok dc_qlookup_12_Q3. Proof. apply table_okb_ok. vm_compute. reflexivity. Qed.
Lemma ac8 : table_ok ac_qlookup_Q3. Proof. apply table_okb_ok. vm_compute. reflexivity. Qed.
Lemma ac10 : table_ok ac_qlookup_10_Q3. Proof. apply table_okb_ok. vm_compute. reflexivity. Qed.
Lemma ac12 : table_ok ac_qlookup_12_Q3. Proof. apply table_okb_ok. vm_compute. reflexivity. Qed.

Lemma near_lo q a b : 0 < q <= a -> a <= b -> as_near q a b.
Proof. intros. unfold as_near. rewrite !Z.max_r, !Z.min_l by lia. nia. Qed.
Lemma near_hi q a b : 0 < b <= a -> a <= q -> as_near q a b.
Proof. intros. unfold as_near. rewrite !Z.max_l, !Z.min_r by lia. nia. Qed.
(** [a] below, [b] above *)
Lemma near_down q a b : 0 < a <= q -> q <= b -> q * q <= a * b -> as_near q a b.
Proof. intros. unfold as_near. rewrite Z.max_l, Z.min_l, Z.max_r, Z.min_r by lia. nia. Qed.
Lemma near_up q a b : 0 < a <= q -> q <= b -> a * b <= q * q -> as_near q b a.
Proof. intros. unfold as_near. rewrite Z.max_r, Z.min_r, Z.max_l, Z.min_l by lia. nia. Qed.

(** What [select_qi] returns: the nearest, and among equal steps the one on the side of [q]. *)
Definition chosen (t : list Z) (q i : Z) : Prop :=
  nearest t q i /\
  (q < nth (Z.to_nat i) t 0 -> forall j, (j < Z.to_nat i)%nat -> nth j t 0 < nth (Z.to_nat i) t 0) /\
  (nth (Z.to_nat i) t 0 < q -> forall j, (Z.to_nat i < j < length t)%nat -> nth (Z.to_nat i) t 0 < nth j t 0).

Lemma select_chosen bs t q : binary_search_ok bs -> table_ok t ->
  exists i, select_qi bs q t = Some i /\ chosen t q i.
Proof.
  intros Hbs [Ln [So Bd]]. unfold select_qi.
  assert (Zl : zlen t = 256) by (unfold zlen; lia).
  rewrite !at_nth by lia. cbn [Z.to_nat]. change (Pos.to_nat 255) with 255%nat.
  pose proof (Bd 0%nat ltac:(lia)) as B0. pose proof (Bd 255%nat ltac:(lia)) as B255.
  destruct (Z.ltb_spec q (nth 0 t 0)) as [Hlo|Hlo].
  { exists 0. split; [reflexivity|]. split; [split; [lia|split]|split].
    - intros Hq j Hj. change (Z.to_nat 0) with 0%nat. apply near_lo; [lia|apply So; lia].
    - reflexivity.
    - intros _ j Hj. lia.
    - change (Z.to_nat 0) with 0%nat. lia. }
  destruct (Z.leb_spec (nth 255 t 0) q) as [Hhi|Hhi].
  { exists 255. split; [reflexivity|]. unfold chosen, nearest. change (Z.to_nat 255) with 255%nat. split; [split; [lia|split]|split]; try lia.
    intros Hq j Hj. apply near_hi; [|lia]. split; [specialize (Bd j ltac:(lia)); lia|apply So; lia]. }
  rewrite (u16_id q) by lia.
  destruct (Z.eqb_spec q 0) as [|_]; [lia|].
  specialize (Hbs t q So). destruct (bs t q) as [i|i].
  - destruct Hbs as [Hi E]. exists i. rewrite u8_id by lia. split; [reflexivity|].
    split; [split; [lia|split; [|lia]]|rewrite E; split; lia].
    intros _ j Hj. rewrite E. destruct (Z.le_gt_cases q (nth j t 0)); [apply near_lo; lia|apply near_hi; [|lia]].
    specialize (Bd j ltac:(lia)). lia.
  - destruct Hbs as [Hi P].
    assert (I1 : 1 <= i).
    { specialize (P 0%nat ltac:(lia)). destruct (Z.ltb_spec (Z.of_nat 0) i) in P; lia. }
    assert (I2 : i <= 255).
    { specialize (P 255%nat ltac:(lia)). destruct (Z.ltb_spec (Z.of_nat 255) i) in P; lia. }
    rewrite !at_nth by lia.
    set (a := nth (Z.to_nat (i - 1)) t 0). set (b := nth (Z.to_nat i) t 0).
    assert (A : a < q) by (specialize (P (Z.to_nat (i - 1)) ltac:(lia)); destruct (Z.ltb_spec (Z.of_nat (Z.to_nat (i - 1))) i) in P; [exact P|lia]).
    assert (B : q < b) by (specialize (P (Z.to_nat i) ltac:(lia)); destruct (Z.ltb_spec (Z.of_nat (Z.to_nat i)) i) in P; [lia|exact P]).
    assert (A4 : 4 <= a < 32768) by (apply Bd; lia). assert (B4 : 4 <= b < 32768) by (apply Bd; lia).
    rewrite (sw_id 32 q) by lia.
    destruct (Z.ltb_spec (q * q) (a * b)) as [C|C].
    + exists (i - 1). rewrite u8_id by lia. split; [reflexivity|]. split; [split; [lia|split; [|lia]]|split].
      * intros _ j Hj. fold a. specialize (P j ltac:(lia)).
        destruct (Z.ltb_spec (Z.of_nat j) i) as [J|J] in P.
        -- apply near_hi; [|lia]. split; [specialize (Bd j ltac:(lia)); lia|]. apply So; lia.
        -- apply near_down; [lia|lia|]. assert (b <= nth j t 0) by (apply So; lia). nia.
      * fold a. lia.
      * fold a. intros _ j Hj. specialize (P j ltac:(lia)). destruct (Z.ltb_spec (Z.of_nat j) i) as [J|J] in P; lia.
    + exists i. rewrite u8_id by lia. split; [reflexivity|]. split; [split; [lia|split; [|lia]]|split].
      * intros _ j Hj. fold b. specialize (P j ltac:(lia)).
        destruct (Z.ltb_spec (Z.of_nat j) i) as [J|J] in P.
        -- assert (nth j t 0 <= a) by (apply So; lia). specialize (Bd j ltac:(lia)). apply near_up; [lia|lia|]. nia.
        -- apply near_lo; [lia|]. apply So; lia.
      * fold b. intros _ j Hj. specialize (P j ltac:(lia)). destruct (Z.ltb_spec (Z.of_nat j) i) as [J|J] in P; lia.
      * fold b. lia.
Qed.

(** the choice is monotone *)
Lemma near_order q q' a b : 0 < q -> 0 < b < a -> as_near q a b -> as_near q' b a -> 0 < q' -> q' <= q.
Proof.
  unfold as_near. intros Hq Hb H1 H2 Hq'.
  assert (b * a <= q * q).
  { clear H2. destruct (Z.le_gt_cases q b); [rewrite !Z.max_r, !Z.min_l in H1 by lia; nia|].
    destruct (Z.le_gt_cases a q); [clear H1; apply Z.mul_le_mono_nonneg; lia|].
    rewrite (Z.max_r q a), (Z.min_r q b), (Z.max_l q b), (Z.min_l q a) in H1 by lia. nia. }
  assert (q' * q' <= b * a).
  { clear H1 H. destruct (Z.le_gt_cases q' b); [clear H2; apply Z.mul_le_mono_nonneg; lia|].
    destruct (Z.le_gt_cases a q'); [rewrite !Z.max_l, !Z.min_r in H2 by lia; nia|].
    rewrite (Z.max_l q' b), (Z.min_l q' a), (Z.max_r q' a), (Z.min_r q' b) in H2 by lia. nia. }
  clear H1 H2. apply Z.square_le_simpl_nonneg; lia.
Qed.

Lemma chosen_mono t q q' i i' : table_ok t -> chosen t q i -> chosen t q' i' -> q < q' -> i <= i'.
Proof.
  intros [Ln [So Bd]] [[I [N Z0]] [U D]] [[I' [N' Z0']] [U' D']] Hq.
  assert (Zl : zlen t = 256) by (unfold zlen; lia).
  destruct (Z.le_gt_cases q 0) as [Q|Q]; [specialize (Z0 Q); lia|].
  destruct (Z.le_gt_cases i i') as [|G]; [assumption|exfalso].
  set (a := nth (Z.to_nat i) t 0) in *. set (b := nth (Z.to_nat i') t 0) in *.
  assert (A : 4 <= a < 32768) by (apply Bd; lia). assert (B : 4 <= b < 32768) by (apply Bd; lia).
  assert (BA : b <= a) by (apply So; lia).
  destruct (Z.eq_dec a b) as [E|NE].
  - destruct (Z.lt_trichotomy q a) as [L|[L|L]].
    + specialize (U L (Z.to_nat i') ltac:(lia)). fold b in U. lia.
    + specialize (D' ltac:(lia) (Z.to_nat i) ltac:(lia)). fold a in D'. lia.
    + specialize (D' ltac:(lia) (Z.to_nat i) ltac:(lia)). fold a in D'. lia.
  - specialize (N Q (Z.to_nat i') ltac:(lia)). specialize (N' ltac:(lia) (Z.to_nat i) ltac:(lia)).
    fold a in N'. fold b in N. assert (q' <= q); [|lia]. apply (near_order q q' a b); try lia; assumption.
Qed.
