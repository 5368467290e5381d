(** The explicit shape of the frames of a group: order hints, slots and
    references as functions of the group number. *)
From Verif Require Import Base SMap Sched_model Sched_plan.

Lemma land_neg_odd k : Z.land (2 * k + 1) (- (2 * k + 1)) = 1.
Proof.
  replace (- (2 * k + 1)) with (Z.lnot (2 * k)) by (unfold Z.lnot; lia). rewrite <- Z.ldiff_land.
  apply Z.bits_inj'. intros n Hn. rewrite Z.ldiff_spec. destruct (Z.eq_dec n 0) as [->|H0].
  - rewrite Z.testbit_odd_0, Z.testbit_even_0. reflexivity.
  - replace n with (Z.succ (n - 1)) by lia. rewrite Z.testbit_odd_succ, Z.testbit_even_succ by lia.
    rewrite andb_negb_r. change 1 with (2 * 0 + 1). rewrite Z.testbit_odd_succ by lia. rewrite Z.bits_0. reflexivity.
Qed.
Lemma land_neg_even k : Z.land (2 * k) (- (2 * k)) = 2 * Z.land k (- k).
Proof.
  replace (- (2 * k)) with (2 * (- k)) by lia. apply Z.bits_inj'. intros n Hn. rewrite Z.land_spec.
  destruct (Z.eq_dec n 0) as [->|H0].
  - rewrite !Z.testbit_even_0. reflexivity.
  - replace n with (Z.succ (n - 1)) by lia. rewrite !Z.testbit_even_succ by lia. rewrite Z.land_spec. reflexivity.
Qed.
Lemma lor_even_odd a b : Z.lor (2 * a + 1) (2 * b) = 2 * Z.lor a b + 1.
Proof.
  apply Z.bits_inj'. intros n Hn. rewrite Z.lor_spec. destruct (Z.eq_dec n 0) as [->|H0].
  - rewrite !Z.testbit_odd_0. reflexivity.
  - replace n with (Z.succ (n - 1)) by lia. rewrite !Z.testbit_odd_succ, Z.testbit_even_succ, Z.lor_spec by lia. reflexivity.
Qed.
Lemma lor_even_even a b : Z.lor (2 * a) (2 * b) = 2 * Z.lor a b.
Proof.
  apply Z.bits_inj'. intros n Hn. rewrite Z.lor_spec. destruct (Z.eq_dec n 0) as [->|H0].
  - rewrite !Z.testbit_even_0. reflexivity.
  - replace n with (Z.succ (n - 1)) by lia. rewrite !Z.testbit_even_succ, Z.lor_spec by lia. reflexivity.
Qed.
Lemma lor_odd_1 a : exists k, Z.lor a 1 = 2 * k + 1.
Proof.
  exists (Z.lor a 1 / 2). assert (H := Z.div_mod (Z.lor a 1) 2 ltac:(lia)).
  assert (E : Z.odd (Z.lor a 1) = true).
  { rewrite <- Z.bit0_odd, Z.lor_spec, orb_true_r. reflexivity. }
  assert (E2 := Zmod_odd (Z.lor a 1)). rewrite E in E2. lia.
Qed.

Lemma lvl_odd g : pos_to_lvl (2 * g + 1) 2 = 2.
Proof.
  unfold pos_to_lvl, ctz. change (2 ^ 2) with (2 * 2). rewrite lor_even_odd, land_neg_odd. reflexivity.
Qed.
Lemma lvl_2 g : pos_to_lvl (4 * g + 2) 2 = 1.
Proof.
  unfold pos_to_lvl, ctz. replace (4 * g + 2) with (2 * (2 * g + 1)) by lia. change (2 ^ 2) with (2 * (2 * 1)).
  rewrite lor_even_even, lor_even_odd, land_neg_even, land_neg_odd. reflexivity.
Qed.
Lemma lvl_0 g : pos_to_lvl (4 * g) 2 = 0.
Proof.
  unfold pos_to_lvl, ctz. replace (4 * g) with (2 * (2 * g)) by lia. change (2 ^ 2) with (2 * (2 * 1)).
  rewrite !lor_even_even. destruct (lor_odd_1 g) as [k ->]. rewrite !land_neg_even, land_neg_odd. reflexivity.
Qed.

(** The parameters of an inter frame, by position in its group. *)
Definition switch_at (c : config) (j : Z) : bool := (0 <? cf_switch_interval c) && (j mod cf_switch_interval c =? 0).

Definition shape (c : config) (gs j : Z) (t : list Z) : finfo :=
  let g := gidx c j in
  if ic_reorder c then
    let mk hint show level idx slot refs sef :=
      FInfo (gs + hint) hint show INTER level idx slot (if sef : bool then 0 else 2 ^ slot) refs sef
        (if show : bool then t else []) (cf_error_resilient c)
        (if cf_error_resilient c || (2 <? level) then 7 else 2) (negb (idx =? 0)) in
    let b := g mod 4 in let n := (g + 1) mod 4 in
    match ridx c j with
    | 0 => mk (4 * g + 4) false 0 0 n [b; (g + 3) mod 4; b; b; b; b; b] false
    | 1 => mk (4 * g + 2) false 1 1 4 [b; b; 4; b; b; b; n] false
    | 2 => mk (4 * g + 1) true 2 2 5 [b; b; 5; b; b; b; 4] false
    | 3 => mk (4 * g + 2) true 1 3 4 [b; b; 4; b; b; b; n] true
    | 4 => mk (4 * g + 3) true 2 4 5 [4; 4; 5; 4; 4; 4; n] false
    | _ => mk (4 * g + 4) true 0 5 n [b; b; b; b; b; b; (g + 3) mod 4] true
    end
  else
    let sw := switch_at c j in
    let b := (j + 3) mod 4 in
    let er := if sw then true else cf_error_resilient c in
    FInfo (gs + j) j true (if sw then SWITCH else INTER) 0 0 (j mod 4)
      (if sw then 255 else 2 ^ (j mod 4))
      (if cf_multiref c then [b; (j + 2) mod 4; b; b; b; b; b] else [b; b; b; b; b; b; b]) false t er
      (if er then 7 else 2) false.

Lemma mod4_shift a b : (a mod 4 + b) mod 4 = (a + b) mod 4.
Proof. rewrite Zplus_mod_idemp_l. reflexivity. Qed.

Lemma inter_shape c gs j t : (0 < cf_switch_interval c -> cf_low_latency c = true) ->
  1 <= j -> 0 <= hintz c j < 2 ^ 32 -> inter_info c gs j t = shape c gs j t.
Proof.
  intros Hsw Hj Hh.
  assert (Hr := ridx_range c (fun _ => false) j). assert (Hd := j_decomp c (fun _ => false) j).
  assert (Hgi := get_input_eq c j gs Hh). assert (Hgo := get_order_hint_eq c j Hh).
  unfold inter_info. rewrite Hgi, Hgo. unfold inputz. destruct (Z.eqb_spec j 0); [lia|].
  change (get_idx c j) with (ridx c j). unfold shape, get_level, get_slot_idx, get_show_existing, get_show_frame, lower_slot, ic_multiref.
  unfold hintz in *. clear Hgi Hgo Hh.
  destruct (cases_mode c) as [(E0 & E1 & E2 & E3)|(E0 & E1 & E2 & E3)]; rewrite E0, E1, E2 in *; rewrite E3 in *; cbn [negb orb andb].
  - assert (Es : 0 <? cf_switch_interval c = false).
    { unfold ic_reorder in E0. destruct (Z.ltb_spec 0 (cf_switch_interval c)); [|reflexivity].
      rewrite (Hsw ltac:(assumption)) in E0. discriminate. }
    rewrite Es. cbn [andb]. set (g := gidx c j) in *.
    assert (R : ridx c j = 0 \/ ridx c j = 1 \/ ridx c j = 2 \/ ridx c j = 3 \/ ridx c j = 4 \/ ridx c j = 5) by lia.
    clearbody g. clear - R.
    assert (S3 : ((g + 1) mod 4 + 4 - 1) mod 4 = g mod 4) by dlia.
    assert (S2 : ((g + 1) mod 4 + 4 - 2) mod 4 = (g + 3) mod 4) by dlia.
    assert (D4 : ((4 * g + 4) / 2 ^ 2) mod 4 = (g + 1) mod 4) by (change (2 ^ 2) with 4; dlia).
    assert (D0 : (4 * g / 2 ^ 2) mod 4 = g mod 4) by (change (2 ^ 2) with 4; dlia).
    assert (L4 : pos_to_lvl (4 * g + 4) 2 = 0) by (replace (4 * g + 4) with (4 * (g + 1)) by lia; apply lvl_0).
    destruct R as [R|[R|[R|[R|[R|R]]]]]; rewrite R.
    + change (0 <? 2) with true. cbn iota. change (4 / 2 ^ 0) with 4. change (0 =? 0) with true. cbn iota.
      change (2 <=? 0) with false. cbn [andb negb set_nth repeat].
      rewrite D4, S3, S2. reflexivity.
    + change (1 <? 2) with true. cbn iota. change (4 / 2 ^ 1) with 2. change (1 =? 0) with false. cbn iota.
      change (2 <=? 1) with false. cbn [andb negb set_nth repeat].
      replace (4 * g + 2 - 2) with (4 * g) by lia. replace (4 * g + 2 + 2) with (4 * g + 4) by lia.
      rewrite lvl_0, L4. change (0 =? 0) with true. cbn iota. rewrite D0, D4. reflexivity.
    + change (2 <? 2) with false. cbn iota. change (2 - 2 + 1) with 1. change (pos_to_lvl 1 2) with 2.
      change (4 / 2 ^ 2) with 1. change (2 =? 0) with false. cbn iota.
      change (2 <=? 2) with true. change (count_ones 1 =? 1) with true. change (2 =? 2) with true. cbn [andb negb set_nth repeat].
      replace (4 * g + 1 - 1) with (4 * g) by lia. replace (4 * g + 1 + 1) with (4 * g + 2) by lia.
      rewrite lvl_0, lvl_2. change (0 =? 0) with true. change (1 =? 0) with false. cbn iota. rewrite D0. reflexivity.
    + change (3 <? 2) with false. cbn iota. change (3 - 2 + 1) with 2. change (pos_to_lvl 2 2) with 1.
      change (4 / 2 ^ 1) with 2. change (3 =? 0) with false. cbn iota.
      change (2 <=? 3) with true. change (count_ones 2 =? 1) with true. change (3 =? 2) with false. cbn [andb negb set_nth repeat].
      change (1 =? 0) with false. cbn iota.
      replace (4 * g + 2 - 2) with (4 * g) by lia. replace (4 * g + 2 + 2) with (4 * g + 4) by lia.
      rewrite lvl_0, L4. change (0 =? 0) with true. cbn iota. rewrite D0, D4. reflexivity.
    + change (4 <? 2) with false. cbn iota. change (4 - 2 + 1) with 3. change (pos_to_lvl 3 2) with 2.
      change (4 / 2 ^ 2) with 1. change (4 =? 0) with false. cbn iota.
      change (2 <=? 4) with true. change (count_ones 3 =? 1) with false. change (4 =? 2) with false. cbn [andb negb set_nth repeat].
      change (2 =? 0) with false. cbn iota.
      replace (4 * g + 3 - 1) with (4 * g + 2) by lia. replace (4 * g + 3 + 1) with (4 * g + 4) by lia.
      rewrite lvl_2, L4. change (0 =? 0) with true. change (1 =? 0) with false. cbn iota. rewrite D4. reflexivity.
    + change (5 <? 2) with false. cbn iota. change (5 - 2 + 1) with 4. change (pos_to_lvl 4 2) with 0.
      change (5 =? 0) with false. cbn iota.
      change (2 <=? 5) with true. change (count_ones 4 =? 1) with true. change (5 =? 2) with false. cbn [andb negb set_nth repeat].
      change (0 =? 0) with true. cbn iota. rewrite D4, S3, S2. reflexivity.
  - assert (R : ridx c j = 0) by lia. rewrite R in *. replace (gidx c j) with (j - 1) by lia.
    change (0 <? 0) with false. cbn iota. replace (1 * (j - 1) + (0 - 0 + 1)) with j by lia.
    change (0 =? 0) with true. cbn [andb negb]. rewrite andb_true_r. change (2 ^ 0) with 1. rewrite Z.div_1_r.
    change (0 <=? 0) with true. change (2 <? 0) with false. rewrite !orb_false_r, !andb_false_r. cbn [andb set_nth repeat].
    fold (switch_at c j).
    replace ((j mod 4 + 4 - 1) mod 4) with ((j + 3) mod 4) by dlia.
    replace ((j mod 4 + 4 - 2) mod 4) with ((j + 2) mod 4) by dlia.
    destruct (switch_at c j), (cf_multiref c); reflexivity.
Qed.

(** What the front end needs to know about the references. *)
Lemma shape_refs c gs j t : 1 <= j ->
  Forall (fun r => 0 <= r < 8) (fi_refs (shape c gs j t)) /\ (length (uniq [] (fi_refs (shape c gs j t))) <= 3)%nat /\
  length (fi_refs (shape c gs j t)) = 7%nat /\ 0 <= fi_map_idx (shape c gs j t) < 8 /\
  is_key (fi_type (shape c gs j t)) = false /\ (fi_sef (shape c gs j t) = true -> fi_show (shape c gs j t) = true).
Proof.
  intros Hj. unfold shape.
  assert (M : forall x, 0 <= x mod 4 < 8) by (intros x; dlia).
  assert (U3 : forall a b d : Z, (length (uniq [] [a; a; b; a; a; a; d]) <= 3)%nat).
  { intros a b d. cbn. rewrite Z.eqb_refl. cbn.
    destruct (Z.eqb_spec a b); cbn; rewrite ?Z.eqb_refl, ?orb_true_r; cbn; rewrite ?Z.eqb_refl, ?orb_true_r; cbn;
      rewrite ?Z.eqb_refl, ?orb_true_r; cbn; destruct (a =? d); cbn; try lia; destruct (b =? d); cbn; lia. }
  assert (U2 : forall a b : Z, (length (uniq [] [a; b; a; a; a; a; a]) <= 3)%nat).
  { intros a b. cbn. destruct (Z.eqb_spec a b); cbn; rewrite ?Z.eqb_refl, ?orb_true_r; cbn;
      rewrite ?Z.eqb_refl, ?orb_true_r; cbn; lia. }
  assert (F : forall a b d e f g h, 0 <= a < 8 -> 0 <= b < 8 -> 0 <= d < 8 -> 0 <= e < 8 -> 0 <= f < 8 -> 0 <= g < 8 -> 0 <= h < 8 ->
              Forall (fun r => 0 <= r < 8) [a; b; d; e; f; g; h]) by (intros; repeat (constructor; [assumption|]); constructor).
  destruct (ic_reorder c).
  - destruct (ridx c j) as [|[[p|[p|p|]|]|[p|[p|p|]|]|]|p];
      cbn [fi_refs fi_map_idx fi_type fi_sef fi_show];
      (split; [apply F; (apply M || lia)|]); (split; [apply U3 || apply U2|]); (split; [reflexivity|]);
      (split; [apply M || lia|]); (split; [reflexivity|]); discriminate || reflexivity.
  - cbn [fi_refs fi_map_idx fi_type fi_sef fi_show].
    split; [destruct (cf_multiref c); apply F; apply M|].
    split; [destruct (cf_multiref c); [apply U2|apply (U3 _ ((j + 3) mod 4) ((j + 3) mod 4))]|].
    split; [destruct (cf_multiref c); reflexivity|]. split; [apply M|]. split; [destruct (switch_at c j); reflexivity|discriminate].
Qed.

(** Switch frames are shown, refresh everything and are error resilient; error
    resilience goes with no primary reference. *)
Lemma shape_primary c gs j t : let fi := shape c gs j t in
  match fi_type fi with SWITCH => fi_show fi && (fi_refresh fi =? 255) && fi_error_res fi | _ => true end = true /\
  negb (fi_error_res fi) || (fi_primary fi =? 7) = true /\ 0 <= fi_primary fi <= 7.
Proof.
  intros fi. subst fi. unfold shape. destruct (ic_reorder c).
  - set (g := gidx c j). generalize (ridx c j). intros x.
    assert (X : forall b lv, negb b || ((if b || (2 <? lv) then 7 else 2) =? 7) = true /\ 0 <= (if b || (2 <? lv) then 7 else 2) <= 7).
    { intros b lv. destruct b; cbn [negb orb]; [split; [reflexivity|lia]|]. destruct (2 <? lv); split; reflexivity || lia. }
    destruct x as [|p|p]; [split; [reflexivity|apply X]| |split; [reflexivity|apply X]].
    repeat (destruct p as [p|p|]; try (split; [reflexivity|apply X])).
  - cbn [fi_type fi_show fi_refresh fi_error_res fi_primary]. destruct (switch_at c j); cbn; [repeat split; lia|].
    split; [reflexivity|]. destruct (cf_error_resilient c); cbn; split; reflexivity || lia.
Qed.
