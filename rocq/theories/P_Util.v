(** C37: clustering. *)
From Coq Require Import Sorted.
From Verif Require Import Kmeans_model Kmeans_spec Kmeans_proof.
Open Scope Z_scope.
Open Scope list_scope.

Lemma chain_sorted q l : chain q l -> StronglySorted Z.le l /\ Forall (fun m => lo_le q m) l.
Proof.
  induction 1 as [|q m l H C [IH F]]; [split; constructor|]. split.
  - constructor; [exact IH|]. exact F.
  - constructor; [exact H|]. rewrite Forall_forall in *. intros x I. specialize (F x I).
    destruct q; cbn [lo_le] in *; [lia|exact H].
Qed.

(** For any sorted data of an element type [tmin, tmax] containing 0, whose absolute
    values can be summed in an i64: no unchecked access leaves the slice, no unchecked
    conversion fails and no sum overflows; the incremental scans compute exactly the
    rounds of the specification; there are [k] centres, in order, not below the
    minimum and not above the maximum if that is not negative.  Missing: with a
    negative maximum the bound is one larger (see below). *)
Theorem C37_partial tmin tmax a b k data :
  StronglySorted Z.le data -> data <> [] -> (2 <= k)%nat ->
  (forall x, In x data -> a <= x <= b) -> tmin <= a /\ b <= tmax /\ 0 <= tmax ->
  total (map Z.abs data) + zlen data < 2 ^ 63 ->
  exists ms, kmeans tmin tmax k data = Some ms /\
    ms = Nat.iter (Z.to_nat (2 * (Z.log2 (zlen data) + 1))) (round data) (start k data) /\
    length ms = k /\ StronglySorted Z.le ms /\
    forall m, In m ms -> a <= m <= if b <? 0 then b + 1 else b.
Proof.
  intros H1 H2 H3 H4 H5 H6. destruct (kmeans_ok tmin tmax a b k data H1 H2 H3 H4 H5 H6) as (ms & E1 & E2 & E3 & E4 & E5).
  exists ms. split; [exact E1|]. split; [exact E2|]. split; [exact E3|]. split; [apply chain_sorted with (q := None), E4|exact E5].
Qed.
Print Assumptions C37_partial.

(** A centre can lie outside of the range of the data: the division rounds towards
    zero after the half was added. *)
Theorem C37_range_refuted :
  exists data ms, StronglySorted Z.le data /\ data <> [] /\ kmeans (-32768) 32767 3 data = Some ms /\
    exists m, In m ms /\ forall x, In x data -> x < m.
Proof.
  exists [-5; -5; -5], [-4; -4; -4]. split; [repeat constructor; lia|]. split; [discriminate|].
  split; [vm_compute; reflexivity|]. exists (-4). split; [left; reflexivity|].
  intros x I. cbn [In] in I. lia.
Qed.
Print Assumptions C37_range_refuted.

(** ** Examples: that of the unit test, and one with several rounds and empty clusters *)
Example ex_three : kmeans (-32768) 32767 3 [1; 2; 3; 10; 11; 12; 20; 21; 22] = Some [2; 11; 21].
Proof. vm_compute. reflexivity. Qed.
Definition ex_data := [-9; -7; 0; 0; 1; 2; 50; 51; 1000].
Example ex_rounds : kmeans (-32768) 32767 4 ex_data = Some [-7; 1; 51; 1000] /\
  start 4 ex_data = [-9; 0; 2; 1000] /\ round ex_data (start 4 ex_data) = [-7; 0; 26; 1000].
Proof. vm_compute. repeat split. Qed.
Example ex_one : kmeans (-32768) 32767 3 [7] = Some [7; 7; 7].
Proof. vm_compute. reflexivity. Qed.
Example ex_meets : StronglySorted Z.le ex_data /\ ex_data <> [] /\ (forall x, In x ex_data -> -9 <= x <= 1000) /\
  total (map Z.abs ex_data) + zlen ex_data < 2 ^ 63.
Proof.
  split; [repeat constructor; lia|]. split; [discriminate|]. split; [|vm_compute; reflexivity].
  intros x I. cbn [In ex_data] in I. lia.
Qed.
