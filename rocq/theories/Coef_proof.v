(** Transform type, end of block and Golomb codes are read back. *)
From Verif Require Import Coef_model Coef_spec.
Open Scope string_scope.
Open Scope Z_scope.
Open Scope list_scope.

Ltac dlia := Z.div_mod_to_equations; lia.

Lemma at_dims_cases t wl hl : 0 <= t < 19 -> nth_error tx_dims (Z.to_nat t) = Some (wl, hl) ->
  In (t, (wl, hl)) (combine (map Z.of_nat (seq 0 19)) tx_dims).
Proof.
  intros H E. assert (exists k, (k < 19)%nat /\ t = Z.of_nat k) as [k [Hk ->]] by (exists (Z.to_nat t); lia).
  rewrite Nat2Z.id in E.
  do 19 (destruct k as [|k]; [cbn [nth_error tx_dims] in E; injection E as <- <-; cbn; tauto|]). lia.
Qed.

Lemma at_some {A} (l : list A) i : 0 <= i -> at_ l i = nth_error l (Z.to_nat i).
Proof. intros H. unfold at_. replace (0 <=? i) with true by lia. reflexivity. Qed.

(** ** Transform type *)
Lemma tx_type_read t wl hl ty mode is_inter reduced :
  0 <= t < 19 -> nth_error tx_dims (Z.to_nat t) = Some (wl, hl) ->
  type_allowed wl hl is_inter reduced ty ->
  reads (read_tx_type wl hl mode is_inter reduced) (write_tx_type t ty mode is_inter reduced) ty.
Proof.
  intros Ht E A. pose proof (at_dims_cases t wl hl Ht E) as C. clear Ht E.
  assert (L : forall name ix n s set ty, 0 <= s < n -> lookup set s = ty ->
    reads (rd s <- rsym name ix n; ret (lookup set s)) (wsym name ix n s) ty).
  { intros name ix n s set ty' Hs <-. apply (reads_last _ _ _ (lookup set)). now apply reads_sym. }
  cbn [combine map seq tx_dims In] in C.
  repeat destruct C as [C|C];
    (try contradiction;
     (assert (t = fst (t, (wl, hl))) as Et by reflexivity; assert (wl = fst (snd (t, (wl, hl)))) as Ew by reflexivity;
      assert (hl = snd (snd (t, (wl, hl)))) as Eh by reflexivity;
      rewrite <- C in Et, Ew, Eh; cbn in Et, Ew, Eh; clear C; subst t wl hl);
     destruct is_inter, reduced; unfold type_allowed in A; cbn in A;
     repeat destruct A as [<-|A]; try contradiction; try subst ty;
     unfold read_tx_type; cbn [spec_tx_set Z.min Z.max Z.eqb Pos.eqb Z.compare Pos.compare Pos.compare_cont orb];
     first [apply L; [split; [discriminate|reflexivity]|reflexivity] | apply reads_ret]).
Qed.

(** ** Bits *)
Lemma wbits_length n v : exists l, wbits n v = Some l.
Proof. induction n as [|n [l IH]]; [exists []; reflexivity|]. cbn [wbits]. rewrite IH. eexists; reflexivity. Qed.

Lemma extra_read n : forall v e, 0 <= v ->
  reads (read_extra n e) (wbits n v) (e + v mod 2 ^ Z.of_nat n).
Proof.
  induction n as [|n IH]; intros v e Hv.
  - cbn [read_extra wbits]. eapply reads_val; [apply reads_ret|]. change (2 ^ Z.of_nat 0) with 1. rewrite Z.mod_1_r. lia.
  - cbn [read_extra wbits].
    pose proof (Z.mod_pos_bound (v / 2 ^ Z.of_nat n) 2 ltac:(lia)) as B.
    eapply reads_bind; [apply reads_lit; lia|]. cbv beta.
    eapply reads_val; [apply IH; exact Hv|].
    replace (Z.of_nat (S n)) with (Z.of_nat n + 1) by lia.
    rewrite Z.pow_add_r, Z.pow_1_r by lia.
    rewrite Z.rem_mul_r by (try lia; apply Z.pow_nonzero; lia).
    destruct (v / 2 ^ Z.of_nat n mod 2 =? 1) eqn:Q; [apply Z.eqb_eq in Q; rewrite Q; lia|].
    apply Z.eqb_neq in Q. replace (v / 2 ^ Z.of_nat n mod 2) with 0 by lia. lia.
Qed.

(** ** End of block *)
Definition eob_okb (eob : Z) : bool :=
  match get_eob_pos_token eob with
  | Some (pt, x) =>
      (1 <=? pt) && (pt <=? 11) &&
      (if pt <? 2 then (eob =? pt) && (x =? 0) else (eob =? 2 ^ (pt - 2) + 1 + x) && (0 <=? x) && (x <? 2 ^ (pt - 2))) &&
      match at_ k_eob_offset_bits pt with Some ob => ob =? (if pt <? 3 then 0 else pt - 2) | None => false end
  | None => false
  end.
Lemma eob_checked : forallb (fun k => eob_okb (Z.of_nat k)) (seq 1 1024) = true.
Proof. vm_compute. reflexivity. Qed.

Lemma eob_token eob : 1 <= eob <= 1024 ->
  exists pt x, get_eob_pos_token eob = Some (pt, x) /\ 1 <= pt <= 11 /\
    at_ k_eob_offset_bits pt = Some (if pt <? 3 then 0 else pt - 2) /\
    (pt < 2 -> eob = pt) /\ (2 <= pt -> eob = 2 ^ (pt - 2) + 1 + x /\ 0 <= x < 2 ^ (pt - 2)).
Proof.
  intros H. pose proof eob_checked as C. rewrite forallb_forall in C.
  specialize (C (Z.to_nat eob)). rewrite in_seq in C. specialize (C ltac:(lia)).
  rewrite Z2Nat.id in C by lia. unfold eob_okb in C.
  destruct (get_eob_pos_token eob) as [[pt x]|]; [|discriminate].
  rewrite !andb_true_iff in C. destruct C as [[[C1 C2] C3] C4].
  destruct (at_ k_eob_offset_bits pt) as [ob|] eqn:Eo; [|discriminate].
  exists pt, x. split; [reflexivity|]. split; [lia|]. split; [rewrite Eo; f_equal; apply Z.eqb_eq; exact C4|].
  destruct (pt <? 2) eqn:Q; split; intros; lia.
Qed.

(** the table selected by the encoder is the right one *)
Definition good_size (t : Z) : Prop := 0 <= t < 17.

Lemma eob_table_same t wl hl : good_size t -> nth_error tx_dims (Z.to_nat t) = Some (wl, hl) ->
  let m := Z.min wl 5 + Z.min hl 5 - 4 in
  eob_table (wl + hl - 4) = (eob_pt_table m, m + 5) /\ 0 <= m <= 6 /\
  coded_dim wl * coded_dim hl = 2 ^ (m + 4).
Proof.
  intros G E. pose proof (at_dims_cases t wl hl ltac:(unfold good_size in G; lia) E) as C. clear E.
  cbn [combine map seq tx_dims In] in C. unfold good_size in G.
  repeat destruct C as [C|C]; try contradiction;
    (assert (t = fst (t, (wl, hl))) as Et by reflexivity; assert (wl = fst (snd (t, (wl, hl)))) as Ew by reflexivity;
     assert (hl = snd (snd (t, (wl, hl)))) as Eh by reflexivity;
     rewrite <- C in Et, Ew, Eh; cbn in Et, Ew, Eh; clear C; subst t wl hl); try lia;
    (split; [reflexivity|split; [cbn; lia|reflexivity]]).
Qed.

Lemma eob_read t wl hl eob cls ptype :
  good_size t -> nth_error tx_dims (Z.to_nat t) = Some (wl, hl) ->
  1 <= eob <= coded_dim wl * coded_dim hl ->
  reads (read_eob wl hl cls ptype) (encode_eob eob wl hl cls (txSzCtx wl hl) ptype) eob.
Proof.
  intros G E He. destruct (eob_table_same t wl hl G E) as [T [Hm A]].
  set (m := Z.min wl 5 + Z.min hl 5 - 4) in *.
  rewrite A in He.
  assert (Hb : 2 ^ (m + 4) <= 2 ^ 10) by (apply Z.pow_le_mono_r; lia).
  destruct (eob_token eob ltac:(lia)) as [pt [x [Et [Hpt [Eo [E1 E2]]]]]].
  unfold read_eob, encode_eob. fold m. rewrite T, Et. cbn [wbind fst snd].
  rewrite Eo. cbn [wbind].
  assert (Hp : pt <= m + 5).
  { destruct (Z_lt_ge_dec pt 2); [lia|]. specialize (E2 ltac:(lia)).
    destruct (Z_le_gt_dec pt (m + 5)); [assumption|].
    assert (2 ^ (m + 4) <= 2 ^ (pt - 2)) by (apply Z.pow_le_mono_r; lia). lia. }
  eapply reads_bind; [apply reads_sym; lia|]. cbv beta zeta.
  replace (pt - 1 + 1) with pt by lia.
  destruct (pt <? 3) eqn:Q3.
  - cbn [wif]. replace (0 <? 0) with false by reflexivity. cbn [wif].
    eapply reads_val; [apply reads_ret|].
    destruct (pt <? 2) eqn:Q2; [symmetry; apply E1; lia|].
    assert (pt = 2) as -> by lia. specialize (E2 ltac:(lia)). change (2 ^ (2 - 2)) with 1 in *. lia.
  - replace (0 <? pt - 2) with true by lia. cbn [wif].
    specialize (E2 ltac:(lia)). destruct E2 as [E2 Hx].
    pose proof (Z.mod_pos_bound (x / 2 ^ (pt - 2 - 1)) 2 ltac:(lia)) as B.
    eapply reads_bind; [apply reads_sym; lia|]. cbv beta zeta.
    replace (Z.to_nat (pt - 2 - 1)) with (Z.to_nat (pt - 3)) by lia.
    eapply reads_val; [apply extra_read; lia|].
    rewrite Z2Nat.id by lia. replace (pt - 2 - 1) with (pt - 3) in * by lia.
    replace (pt <? 2) with false by lia.
    assert (P : 2 ^ (pt - 2) = 2 ^ (pt - 3) * 2).
    { replace (pt - 2) with (Z.succ (pt - 3)) by lia. rewrite Z.pow_succ_r by lia. lia. }
    assert (P0 : 0 < 2 ^ (pt - 3)) by (apply Z.pow_pos_nonneg; lia).
    rewrite E2.
    assert (Q : x / 2 ^ (pt - 3) < 2) by (apply Z.div_lt_upper_bound; lia).
    assert (Q0 : 0 <= x / 2 ^ (pt - 3)) by (apply Z.div_pos; lia).
    rewrite (Z.mod_small (x / 2 ^ (pt - 3)) 2) by lia.
    pose proof (Z.div_mod x (2 ^ (pt - 3)) ltac:(lia)) as D.
    destruct (x / 2 ^ (pt - 3) =? 1) eqn:Q1.
    + apply Z.eqb_eq in Q1. rewrite Q1 in D. lia.
    + apply Z.eqb_neq in Q1. replace (x / 2 ^ (pt - 3)) with 0 in D by lia. lia.
Qed.

(** ** Golomb codes *)
Lemma golomb_length_read n : forall fuel k, (n < fuel)%nat ->
  reads (read_golomb_length fuel k) (wzeros n +++ wlit 1 1) (k + n)%nat.
Proof.
  induction n as [|n IH]; intros fuel k Hf; (destruct fuel as [|fuel]; [lia|]); cbn [read_golomb_length wzeros].
  - replace (wnil +++ wlit 1 1) with (wlit 1 1 +++ wnil) by reflexivity.
    eapply reads_bind; [apply reads_lit; lia|]. cbv beta. cbn [Z.eqb Pos.eqb].
    replace (k + 0)%nat with k by lia. apply reads_ret.
  - assert (A : forall a b c : writer, (a +++ b) +++ c = a +++ (b +++ c)).
    { intros [a|] [b|] [c|]; cbn; try reflexivity. now rewrite app_assoc. }
    rewrite A. eapply reads_bind; [apply reads_lit; lia|]. cbv beta. cbn [Z.eqb].
    replace (k + S n)%nat with (S k + n)%nat by lia. apply IH. lia.
Qed.

Lemma golomb_bits_read n : forall v x, 0 <= v ->
  reads (read_golomb_bits n x) (wbits n v) (x * 2 ^ Z.of_nat n + v mod 2 ^ Z.of_nat n).
Proof.
  induction n as [|n IH]; intros v x Hv.
  - cbn [read_golomb_bits wbits]. eapply reads_val; [apply reads_ret|].
    change (2 ^ Z.of_nat 0) with 1. rewrite Z.mod_1_r. lia.
  - cbn [read_golomb_bits wbits].
    pose proof (Z.mod_pos_bound (v / 2 ^ Z.of_nat n) 2 ltac:(lia)) as B.
    eapply reads_bind; [apply reads_lit; lia|]. cbv beta.
    eapply reads_val; [apply IH; exact Hv|].
    replace (Z.of_nat (S n)) with (Z.of_nat n + 1) by lia.
    rewrite Z.pow_add_r, Z.pow_1_r by lia.
    rewrite Z.rem_mul_r by (try lia; apply Z.pow_nonzero; lia). lia.
Qed.

Lemma wapp_assoc (a b c : writer) : (a +++ b) +++ c = a +++ (b +++ c).
Proof. destruct a, b, c; cbn; try reflexivity. now rewrite app_assoc. Qed.

Lemma golomb_read level : 0 <= level -> level + 1 < 2 ^ 20 ->
  reads read_golomb (write_golomb level) (level + 1).
Proof.
  intros H0 H1. unfold write_golomb, read_golomb. cbv zeta.
  set (x := level + 1) in *. assert (Hx : 0 < x) by (unfold x; lia). clearbody x.
  pose proof (Z.log2_spec x Hx) as L. pose proof (Z.log2_nonneg x) as L0.
  assert (L20 : Z.log2 x < 20) by (apply Z.log2_lt_pow2; lia).
  replace (Z.log2 x + 1 - 1) with (Z.log2 x) by lia.
  replace (Z.to_nat (Z.log2 x + 1)) with (S (Z.to_nat (Z.log2 x))) by lia.
  set (n := Z.to_nat (Z.log2 x)) in *. cbn [wbits].
  assert (En : Z.of_nat n = Z.log2 x) by lia. rewrite En.
  assert (Q : x / 2 ^ Z.log2 x = 1).
  { symmetry. apply Z.div_unique with (r := x - 2 ^ Z.log2 x); [|lia].
    rewrite Z.pow_succ_r in L by lia. lia. }
  rewrite Q. change (1 mod 2) with 1.
  rewrite <- wapp_assoc. eapply reads_bind; [apply golomb_length_read; lia|].
  cbv beta. cbn [Nat.add]. eapply reads_val; [apply golomb_bits_read; lia|].
  rewrite En. pose proof (Z.div_mod x (2 ^ Z.log2 x) ltac:(lia)) as D. rewrite Q in D. lia.
Qed.
