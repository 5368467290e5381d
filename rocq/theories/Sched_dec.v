(** The decoder accepts the plan's packets and shows the right pictures. *)
From Verif Require Import Base SMap Sched_model Sched_plan Sched_inv Sched_shape Sched_step Sched_recv Sched_spec Sched_slots Sched_run.

Lemma nth_refresh f r : forall s k q, (q < length s)%nat ->
  nth q (refresh_from k f r s) None = if Z.testbit f (k + Z.of_nat q) then Some r else nth q s None.
Proof.
  induction s as [|x s IH]; intros k q Hq; cbn [length] in Hq; [lia|]. cbn [refresh_from]. destruct q as [|q].
  - rewrite Z.add_0_r. cbn [nth]. destruct (Z.testbit _ _); reflexivity.
  - cbn [nth]. rewrite IH by lia. replace (k + 1 + Z.of_nat q) with (k + Z.of_nat (S q)) by lia. reflexivity.
Qed.
Lemma nth_update f r : forall s k q, (q < length s)%nat ->
  nth q (update k f r s) None = if Z.testbit f (k + Z.of_nat q) then Some r else nth q s None.
Proof.
  induction s as [|x s IH]; intros k q Hq; cbn [length] in Hq; [lia|]. cbn [update]. destruct q as [|q].
  - rewrite Z.add_0_r. cbn [nth]. destruct (Z.testbit _ _); reflexivity.
  - cbn [nth]. rewrite IH by lia. replace (k + 1 + Z.of_nat q) with (k + Z.of_nat (S q)) by lia. reflexivity.
Qed.
Lemma update_length f r : forall s k, length (update k f r s) = length s.
Proof. induction s as [|x s IH]; intros k; cbn; [reflexivity|]. rewrite IH. reflexivity. Qed.
Lemma testbit_255 q : 0 <= q < 8 -> Z.testbit 255 q = true.
Proof. intros H. change 255 with (Z.ones 8). rewrite Z.ones_spec_iff; lia. Qed.
Lemma testbit_pow q n : 0 <= q -> 0 <= n -> Z.testbit (2 ^ n) q = (q =? n).
Proof.
  intros Hq Hn. destruct (Z.eqb_spec q n) as [->|Hne]; [apply Z.pow2_bits_true; lia|apply Z.pow2_bits_false; lia].
Qed.
Lemma nth_set_nth {A} (l : list A) n m x d : (n < length l)%nat -> nth m (set_nth n x l) d = if (m =? n)%nat then x else nth m l d.
Proof.
  revert n m. induction l as [|y l IH]; intros n m H; cbn [length] in H; [lia|]. destruct n as [|n], m as [|m]; cbn; try reflexivity.
  apply IH. lia.
Qed.

Lemma nth_map_opt {A} (f : option A -> Z) l n : f None = 0 -> nth n (map f l) 0 = f (nth n l None).
Proof. intros H. rewrite <- H at 1. apply map_nth. Qed.
Lemma dist6_exact a b : Z.abs (a - b) < 32 -> dist6 (a mod 64) (b mod 64) = a - b.
Proof.
  intros H. unfold dist6. rewrite <- Zminus_mod. destruct (Z_lt_le_dec (a - b) 0).
  - replace ((a - b) mod 64) with (a - b + 64).
    + destruct (Z.ltb_spec (a - b + 64) 32); lia.
    + symmetry. rewrite <- (Z_mod_plus_full (a - b) 1 64). apply Z.mod_small. lia.
  - rewrite Z.mod_small by lia. destruct (Z.ltb_spec (a - b) 32); lia.
Qed.
Lemma relative_dist_dist6 a b : relative_dist a b = dist6 (a mod 64) (b mod 64).
Proof.
  unfold relative_dist, dist6. rewrite <- Zminus_mod. change (2 ^ 5 - 1) with 31. change (2 ^ 5) with 32.
  assert (E1 : Z.land (a - b) 31 = Z.land ((a - b) mod 64) 31).
  { change 64 with (2 ^ 6). rewrite <- Z.land_ones by lia. rewrite <- Z.land_assoc. reflexivity. }
  assert (E2 : Z.land (a - b) 32 = Z.land ((a - b) mod 64) 32).
  { change 64 with (2 ^ 6). rewrite <- Z.land_ones by lia. rewrite <- Z.land_assoc. reflexivity. }
  rewrite E1, E2. clear E1 E2. assert (H := Z.mod_pos_bound (a - b) 64 ltac:(lia)). revert H. generalize ((a - b) mod 64). intros d Hd.
  assert (F : forallb (fun d => Z.land d 31 - Z.land d 32 =? (if d <? 32 then d else d - 64)) (zseq 0 64) = true) by reflexivity.
  rewrite forallb_forall in F. apply Z.eqb_eq, F. rewrite in_zseq. lia.
Qed.
Lemma all_some_map {A B} (f : A -> option B) (g : A -> B) l : (forall x, In x l -> f x = Some (g x)) ->
  all_some (map f l) = Some (map g l).
Proof.
  induction l as [|x l IH]; intros H; [reflexivity|]. cbn [map all_some]. rewrite (H x (or_introl eq_refl)).
  rewrite IH by (intros y Hy; apply H; right; exact Hy). reflexivity.
Qed.
Lemma list_eqb_nth {A B} (f : A -> B -> bool) (a : A) (b : B) : forall l m, length l = length m ->
  (forall n, (n < length l)%nat -> f (nth n l a) (nth n m b) = true) -> list_eqb f l m = true.
Proof.
  induction l as [|x l IH]; intros [|y m] HL H; try discriminate; [reflexivity|]. cbn [list_eqb]. apply andb_true_iff.
  split; [exact (H 0%nat ltac:(cbn; lia))|]. apply IH; [cbn in HL; lia|]. intros n Hn. exact (H (S n) ltac:(cbn; lia)).
Qed.
Lemma list_eqb_map {A B C} (f : B -> C -> bool) (g : A -> B) (h : A -> C) l : (forall x, In x l -> f (g x) (h x) = true) ->
  list_eqb f (map g l) (map h l) = true.
Proof.
  induction l as [|x l IH]; intros H; [reflexivity|]. cbn [map list_eqb]. rewrite (H x (or_introl eq_refl)). apply IH.
  intros y Hy. apply H. right. exact Hy.
Qed.
Lemma list_eqb_refl l : list_eqb Z.eqb l l = true.
Proof. induction l as [|x l IH]; [reflexivity|]. cbn. rewrite Z.eqb_refl. exact IH. Qed.
Lemma dec_obus_app st a b : forall d, dec_obus st d (a ++ b) =
  match dec_obus st d a with
  | None => None
  | Some (d', ev) => match dec_obus st d' b with None => None | Some (d'', ev') => Some (d'', ev ++ ev') end
  end.
Proof.
  induction a as [|o a IH]; intros d; cbn [app dec_obus].
  - destruct (dec_obus st d b) as [[d' ev]|]; reflexivity.
  - destruct (dec_obu st d o) as [[d' ev]|]; [|reflexivity]. rewrite IH. destruct (dec_obus st d' a) as [[d2 ev2]|]; [|reflexivity].
    destruct (dec_obus st d2 b) as [[d3 ev3]|]; [|reflexivity]. rewrite app_assoc. reflexivity.
Qed.
Lemma dec_t35 st d t : dec_obus st d (map OT35 t) = Some (d, map Meta t).
Proof. induction t as [|x t IH]; [reflexivity|]. cbn [map dec_obus dec_obu]. rewrite IH. reflexivity. Qed.
Lemma shown_app a b : shown_of (a ++ b) = shown_of a ++ shown_of b.
Proof. induction a as [|x a IH]; [reflexivity|]. destruct x; cbn; rewrite ?IH; reflexivity. Qed.
Lemma shown_meta t : shown_of (map Meta t) = [].
Proof. induction t; [reflexivity|assumption]. Qed.
Lemma dec_packets_app st a b : forall d, dec_packets st d (a ++ b) =
  match dec_packets st d a with
  | None => None
  | Some (d', ev) => match dec_packets st d' b with None => None | Some (d'', ev') => Some (d'', ev ++ ev') end
  end.
Proof.
  induction a as [|o a IH]; intros d; cbn [app dec_packets].
  - destruct (dec_packets st d b) as [[d' ev]|]; reflexivity.
  - destruct (dec_obus st d (p_data o)) as [[d' ev]|]; [|reflexivity]. rewrite IH. destruct (dec_packets st d' a) as [[d2 ev2]|]; [|reflexivity].
    destruct (dec_packets st d2 b) as [[d3 ev3]|]; reflexivity.
Qed.

(** What every decoded frame satisfies: references of the same coded video
    sequence, decoded earlier, at the display distance their order hints say,
    and the prediction direction the encoder assumed. *)
Definition ev_ok (still : bool) (e : event) : Prop :=
  match e with
  | Decoded h p refs cv =>
      match h_type h with
      | KEY => refs = [] /\ pl_refs p = []
      | _ =>
          length refs = 7%nat /\ pl_refs p = map (fun x => Some (ds_pic x)) refs /\
          Forall (fun x => ds_cvs x = cv /\ exists n k, ds_pic x = Recon n k /\ k < pl_out p /\ n <> pl_input p /\
                     dist6 (h_hint h) (ds_hint x) = pl_input p - n) refs /\
          (still = false -> pl_bias p = map (fun x => match ds_pic x with Recon n _ => pl_input p <? n | Source _ => false end) refs)
      end
  | _ => True
  end.

Section Dec.
Variable c : config.
Variable scene : Z -> bool.
Variable ps : list (option params).
Hypothesis Hc : cfg_ok c.
Hypothesis Hps : zlen ps < 2 ^ 31.

Notation iskey := (keyf scene ps).
Notation L := (zlen ps).
Notation t35s := (t35f ps).
Notation opq := (opqf ps).
Notation gstart := (gstart c iskey).
Notation ends := (ends c iskey L).
Notation nkf := (nkf c iskey L).
Notation pos := (pos c iskey L).
Notation ppos := (ppos c iskey L).
Notation pre := (pre c iskey L).
Notation taken := (taken c iskey L).
Notation ts := (ts c iskey L t35s).
Notation entry := (entry c iskey L t35s).
Notation coded := (coded c iskey L t35s).
Notation sb := (sb c iskey L).
Notation real := (real c iskey L t35s).
Notation src := (src c iskey L t35s).
Notation dpb := (dpb c iskey L t35s).
Notation pending := (pending c iskey L t35s).
Notation packets := (packets c iskey L t35s opq).
Notation packet_of := (packet_of c iskey L t35s opq).
Notation frame_obus := (frame_obus c iskey L t35s).
Notation frame_pic := (frame_pic c iskey L t35s).
Notation IL := (ic_in_len c).
Notation OL := (ic_out_len c).
Notation InvB := (InvB c scene ps).
Notation HB := (HB c scene ps).
Notation data_ok := (data_ok c scene ps).
Notation nocoded := (nocoded c scene ps).
Notation Inv := (Inv c scene ps).

Let Hkf : 1 <= cf_max_kf c := proj1 Hc.

(** ** The decoder's slots along the plan *)
Fixpoint cvs (i : nat) : Z :=
  match i with
  | O => 0
  | S k => cvs k + match entry k with Some fi => b2z (is_key (fi_type fi)) | None => 0 end
  end.
Fixpoint ddpb (i : nat) : list (option dslot) :=
  match i with
  | O => repeat None 8
  | S k =>
      match entry k with
      | None => ddpb k
      | Some fi =>
          if fi_sef fi then
            set_nth (Z.to_nat (fi_map_idx fi))
              (match nth (Z.to_nat (fi_map_idx fi)) (ddpb k) None with
               | Some x => Some (DSlot (ds_hint x) (ds_pic x) false (ds_cvs x)) | None => None end) (ddpb k)
          else update 0 (fi_refresh fi)
                 (DSlot (fi_hint fi mod 64) (Recon (fi_input fi) (Z.of_nat k)) (negb (fi_show fi)) (cvs (S k))) (ddpb k)
      end
  end.
Lemma ddpb_length i : length (ddpb i) = 8%nat.
Proof.
  induction i as [|i IH]; [reflexivity|]. cbn [ddpb]. destruct (entry i) as [fi|]; [|exact IH].
  destruct (fi_sef fi); [rewrite set_nth_length; exact IH|rewrite update_length; exact IH].
Qed.

Definition SlotAt (i : nat) (gs : Z) (r : nat) (h : Z) (w : bool) : Prop :=
  exists k, 0 <= k < Z.of_nat i /\ nth r (real i) None = Some (RefFrame h k (Recon (gs + h) k)) /\
            nth r (ddpb i) None = Some (DSlot (h mod 64) (Recon (gs + h) k) w (cvs i)).

Lemma slots_key i fi r : entry i = Some fi -> is_key (fi_type fi) = true -> (r < 8)%nat ->
  SlotAt (S i) (fi_input fi) r 0 false.
Proof.
  intros Ee Hk Hr. destruct (entry_key c scene ps i fi Ee Hk) as (_ & H255 & Hsf & Hsh & Hh).
  exists (Z.of_nat i). split; [lia|]. unfold Sched_plan.real. cbn [Sched_plan.dpb ddpb]. rewrite Ee, Hsf, H255, Hsh, Hh. split.
  - unfold refresh. rewrite nth_refresh by (rewrite dpb_length; lia). rewrite testbit_255 by lia. rewrite Z.add_0_r. reflexivity.
  - rewrite nth_update by (rewrite ddpb_length; lia). rewrite testbit_255 by lia. rewrite Z.add_0_r. reflexivity.
Qed.
Lemma slots_none i gs r h w : entry i = None -> SlotAt i gs r h w -> SlotAt (S i) gs r h w.
Proof.
  intros Ee (k & H1 & H2 & H3). exists k. split; [lia|]. unfold Sched_plan.real in *. cbn [Sched_plan.dpb ddpb cvs]. rewrite Ee, Z.add_0_r. auto.
Qed.
Lemma slots_sef i fi gs r h w : entry i = Some fi -> fi_sef fi = true -> is_key (fi_type fi) = false -> (r < 8)%nat -> 0 <= fi_map_idx fi < 8 ->
  SlotAt i gs r h w -> SlotAt (S i) gs r h (if Z.of_nat r =? fi_map_idx fi then false else w).
Proof.
  intros Ee Hs Hk Hr Hm (k & H1 & H2 & H3). exists k. split; [lia|]. unfold Sched_plan.real in *. cbn [Sched_plan.dpb ddpb cvs].
  rewrite Ee, Hs, Hk. cbn [b2z]. rewrite Z.add_0_r. split; [exact H2|].
  rewrite nth_set_nth by (rewrite ddpb_length; lia).
  destruct (Nat.eqb_spec r (Z.to_nat (fi_map_idx fi))) as [E|E]; destruct (Z.eqb_spec (Z.of_nat r) (fi_map_idx fi)) as [E2|E2]; try lia.
  - rewrite <- E, H3. reflexivity.
  - exact H3.
Qed.
Lemma slots_inter i fi gs r h w : entry i = Some fi -> fi_sef fi = false -> is_key (fi_type fi) = false -> (r < 8)%nat ->
  fi_input fi = gs + fi_hint fi -> SlotAt i gs r h w ->
  SlotAt (S i) gs r (if Z.testbit (fi_refresh fi) (Z.of_nat r) then fi_hint fi else h)
                    (if Z.testbit (fi_refresh fi) (Z.of_nat r) then negb (fi_show fi) else w).
Proof.
  intros Ee Hs Hk Hr Hin (k & H1 & H2 & H3). unfold SlotAt, Sched_plan.real in *. cbn [Sched_plan.dpb ddpb cvs].
  rewrite Ee, Hs, Hk. cbn [b2z]. rewrite Z.add_0_r. unfold refresh.
  exists (if Z.testbit (fi_refresh fi) (Z.of_nat r) then Z.of_nat i else k).
  rewrite nth_refresh by (rewrite dpb_length; lia). rewrite nth_update by (rewrite ddpb_length; lia). rewrite !Z.add_0_l.
  rewrite Hin. destruct (Z.testbit _ _); [split; [lia|auto]|]. split; [lia|auto].
Qed.

(** ** What the slots hold inside a group *)
Definition good (gs j r h : Z) (w : bool) : Prop :=
  if ic_reorder c then h = Hs (nkf gs - gs) (gidx c j) (ridx c j) r /\ w = Ws (nkf gs - gs) (gidx c j) (ridx c j) r
  else 0 <= h <= j - 1 /\ (r < 4 -> j - 1 - (j - 1 - r) mod 4 <= h) /\ w = false.

Lemma shape_reorder gs j t : ic_reorder c = true -> let fi := shape c gs j t in
  0 <= ridx c j <= 5 ->
  fi_hint fi = fh (gidx c j) (ridx c j) /\ fi_input fi = gs + fi_hint fi /\ fi_map_idx fi = fslot (gidx c j) (ridx c j) /\
  fi_sef fi = fsef (ridx c j) /\ fi_show fi = fshow (ridx c j) /\ fi_refs fi = frefs (gidx c j) (ridx c j) /\
  fi_refresh fi = (if fsef (ridx c j) then 0 else 2 ^ fslot (gidx c j) (ridx c j)) /\ fi_type fi = INTER.
Proof.
  intros Hr fi Hx. subst fi. unfold shape. rewrite Hr. set (g := gidx c j). revert Hx. generalize (ridx c j). intros x Hx.
  assert (R : x = 0 \/ x = 1 \/ x = 2 \/ x = 3 \/ x = 4 \/ x = 5) by lia.
  destruct R as [->|[->|[->|[->|[->| ->]]]]]; repeat split; reflexivity.
Qed.
Lemma hintz_fh j : ic_reorder c = true -> 1 <= j -> hintz c j = fh (gidx c j) (ridx c j).
Proof.
  intros Hr Hj. assert (Hx := ridx_range c iskey j). unfold hintz. destruct (cases_mode c) as [(E0 & E1 & E2 & E3)|(E0 & E1 & E2 & E3)]; [|congruence].
  rewrite E1, E2, E3 in *. set (g := gidx c j). revert Hx. generalize (ridx c j). intros x Hx.
  assert (R : x = 0 \/ x = 1 \/ x = 2 \/ x = 3 \/ x = 4 \/ x = 5) by lia.
  destruct R as [->|[->|[->|[->|[->| ->]]]]]; unfold fh; cbn [Z.ltb Z.compare Pos.compare Pos.compare_cont];
    [change (4 / 2 ^ 0) with 4|change (4 / 2 ^ 1) with 2|..]; lia.
Qed.
Lemma fslot_range g rx : 0 <= fslot g rx < 8.
Proof.
  assert (0 <= (g + 1) mod 4 < 4) by (apply Z.mod_pos_bound; lia). unfold fslot.
  destruct rx as [|p|p]; [lia| |lia]. repeat (destruct p as [p|p|]; try lia).
Qed.

Lemma mod4_next j r h : 0 <= r < 4 -> r <> j mod 4 -> j - 1 - (j - 1 - r) mod 4 <= h -> j + 1 - 1 - (j + 1 - 1 - r) mod 4 <= h.
Proof.
  intros Hr Hne H. assert (D1 := Z.div_mod j 4 ltac:(lia)). assert (D2 := Z.mod_pos_bound j 4 ltac:(lia)).
  set (q := j / 4) in *. set (m := j mod 4) in *. clearbody q m. subst j.
  assert (E1 : (4 * q + m - 1 - r) mod 4 = (m - 1 - r) mod 4) by (replace (4 * q + m - 1 - r) with (m - 1 - r + q * 4) by lia; apply Z_mod_plus_full).
  assert (E2 : (4 * q + m + 1 - 1 - r) mod 4 = (m - r) mod 4) by (replace (4 * q + m + 1 - 1 - r) with (m - r + q * 4) by lia; apply Z_mod_plus_full).
  rewrite E1 in H. rewrite E2. clear E1 E2.
  assert (M : m = 0 \/ m = 1 \/ m = 2 \/ m = 3) by lia. assert (R : r = 0 \/ r = 1 \/ r = 2 \/ r = 3) by lia.
  destruct M as [->|[->|[->| ->]]], R as [->|[->|[->| ->]]]; cbn in H |- *; lia.
Qed.

Lemma slots_inv i : snd (pos i) < L -> 1 <= Z.of_nat i - fst (pos i) -> forall r, (r < 8)%nat ->
  exists h w, SlotAt i (snd (pos i)) r h w /\ good (snd (pos i)) (Z.of_nat i - fst (pos i)) (Z.of_nat r) h w.
Proof.
  induction i as [|i IH]; intros HL Hj r Hr; [change (fst (pos 0)) with 0 in Hj; lia|].
  destruct (pos_facts c iskey L i) as (Hgo & Hgs & HP).
  destruct (pos_facts c iskey L (S i)) as (_ & _ & HP').
  assert (HLi : snd (pos i) < L) by (pose proof (pos_gs_mono c iskey L i); lia).
  destruct (HP HLi) as (Hg & _ & Hrm). clear HP.
  destruct (pos_S_cases c iskey L i) as [(Ha & Ep)|(Ha & Ep)]; rewrite Ep in Hj, HL, HP' |- *; cbn [fst snd] in *; [lia|].
  destruct (HP' HL) as (_ & _ & Hrm'). clear HP'. specialize (Hrm' Hj).
  set (gs := snd (pos i)) in *. set (go := fst (pos i)) in *.
  set (j := Z.of_nat i - go) in *. replace (Z.of_nat (S i) - go) with (j + 1) in * by lia.
  destruct (nkf_spec c iskey L gs ltac:(lia) Hg) as [Hnk Hends].
  destruct (Z.eq_dec j 0) as [Ej|Ej].
  - assert (Ee : entry i = Some (fd_fi (new_key_frame gs (ts i)))).
    { unfold Sched_plan.entry, entry_at. fold gs go j. rewrite Ej. reflexivity. }
    exists 0, false. split; [exact (slots_key i _ r Ee eq_refl Hr)|].
    rewrite Ej. change (0 + 1) with 1. unfold good. destruct (step_first c) as [E1 E2]. destruct (ic_reorder c) eqn:Er.
    + rewrite E1, E2. unfold Hs, Ws. change (1 <=? 0) with false. change (2 <=? 0) with false. change (5 <=? 0) with false. change (3 <=? 0) with false.
      cbn [andb]. rewrite !andb_false_r. cbn [andb orb]. split; [|reflexivity].
      destruct (Z.of_nat r <? 4). { assert (0 <= (0 - Z.of_nat r) mod 4) by (apply Z.mod_pos_bound; lia). lia. }
      destruct (Z.of_nat r =? 4); [lia|]. destruct (Z.of_nat r =? 5); lia.
    + split; [lia|]. split; [|reflexivity]. intros _. assert (0 <= (1 - 1 - Z.of_nat r) mod 4) by (apply Z.mod_pos_bound; lia). lia.
  - assert (Hj1 : 1 <= j) by lia. specialize (Hrm Hj1). destruct (IH HLi Hj1 r Hr) as (h & w & HS & HG). clear IH.
    assert (Hlb := hintz_lb c iskey j Hj1). assert (HIg := ILg c iskey j Hj1).
    assert (Een : entry i = if nkf gs <=? gs + hintz c j then None else Some (inter_info c gs j (ts i))).
    { unfold Sched_plan.entry, entry_at. fold gs go j. destruct (Z.eqb_spec j 0); [lia|]. unfold inputz.
      destruct (Z.eqb_spec j 0); [lia|]. rewrite Hends by lia. reflexivity. }
    assert (Esh : forall fi, entry i = Some fi -> fi = shape c gs j (ts i) /\ is_key (fi_type fi) = false).
    { intros fi Ee. destruct (is_key (fi_type fi)) eqn:Ek.
      - destruct (entry_key c scene ps i fi Ee Ek) as (Hi & _). fold go in Hi. lia.
      - destruct (entry_shape c scene ps Hc Hps i fi HLi Ee Ek) as [_ E]. fold gs go in E. fold j in E. auto. }
    assert (Hxr := ridx_range c iskey j). assert (Hg0 := gidx_nonneg c iskey j Hj1).
    unfold good in HG |- *. destruct (ic_reorder c) eqn:Er.
    + destruct (cases_mode c) as [(_ & _ & EI & EO)|(E0 & _)]; [|congruence]. rewrite EO in Hxr. rewrite EI in Hrm, Hrm', Hlb, HIg.
      rewrite (hintz_fh j Er Hj1) in Een.
      destruct HG as [-> ->].
      assert (Enext : (gidx c (j + 1), ridx c (j + 1)) = nextp (gidx c j) (ridx c j)).
      { unfold nextp. destruct (Z.eqb_spec (ridx c j) 5) as [E5|E5].
        - destruct (step_next c iskey j Hj1 ltac:(rewrite EO; lia)) as [-> ->]. reflexivity.
        - destruct (step_same c iskey j Hj1 ltac:(rewrite EO; lia)) as [-> ->]. reflexivity. }
      assert (St := slots_step (nkf gs - gs) (gidx c j) (ridx c j) (Z.of_nat r) Hg0 ltac:(lia) ltac:(lia) ltac:(lia)).
      cbn zeta in St. rewrite <- Enext in St. cbn [fst snd] in St.
      destruct St as [St1 St2].
      { intros E5. destruct (step_next c iskey j Hj1 ltac:(rewrite EO; lia)) as [_ E6]. rewrite E6 in Hrm'. lia. }
      rewrite St1, St2. clear St1 St2 Enext.
      destruct (Z.leb_spec (nkf gs) (gs + fh (gidx c j) (ridx c j))) as [Hle|Hlt].
      * destruct (Z.ltb_spec (fh (gidx c j) (ridx c j)) (nkf gs - gs)); [lia|]. cbn [andb].
        eexists _, _. split; [apply slots_none; [exact Een|exact HS]|]. auto.
      * destruct (Z.ltb_spec (fh (gidx c j) (ridx c j)) (nkf gs - gs)); [|lia]. cbn [andb].
        destruct (Esh _ Een) as [E1 Hnk2]. rewrite E1 in Een, Hnk2.
        destruct (shape_reorder gs j (ts i) Er ltac:(lia)) as (F1 & F2 & F3 & F4 & F5 & F6 & F7 & F8).
        destruct (fsef (ridx c j)) eqn:Esf.
        -- cbn [negb andb].
           eexists _, _. split; [eapply slots_sef; [exact Een|exact F4|exact Hnk2|exact Hr|rewrite F3; apply fslot_range|exact HS]|].
           rewrite F3. split; reflexivity.
        -- cbn [negb andb].
           eexists _, _. split; [eapply slots_inter; [exact Een|exact F4|exact Hnk2|exact Hr|exact F2|exact HS]|].
           rewrite F7, testbit_pow by (pose proof (fslot_range (gidx c j) (ridx c j)); lia). rewrite F1, F5. split; reflexivity.
    + destruct (cases_mode c) as [(E0 & _)|(_ & _ & EI & EO)]; [congruence|]. rewrite EI, EO in *.
      assert (Eg : gidx c j = j - 1) by (unfold gidx; rewrite EO; apply Z.div_1_r).
      destruct HG as (G1 & G2 & ->).
      destruct (Z.leb_spec (nkf gs) (gs + hintz c j)) as [Hle|Hlt].
      * exfalso. assert (Hub := hintz_ub c iskey j Hj1). rewrite EI in Hub. lia.
      * destruct (Esh _ Een) as [E1 Hnk2]. rewrite E1 in Een, Hnk2.
        eexists _, _. split; [eapply slots_inter; [exact Een|..|exact HS]|].
        { unfold shape. rewrite Er. reflexivity. } { exact Hnk2. } { exact Hr. } { unfold shape. rewrite Er. reflexivity. }
        unfold shape. rewrite Er. cbn [fi_refresh fi_hint fi_show]. cbn [negb].
        assert (Mj : 0 <= j mod 4 < 4) by (apply Z.mod_pos_bound; lia).
        destruct (switch_at c j).
        -- rewrite testbit_255 by lia. split; [lia|]. split; [|reflexivity]. intros _.
           assert (0 <= (j + 1 - 1 - Z.of_nat r) mod 4) by (apply Z.mod_pos_bound; lia). lia.
        -- rewrite testbit_pow by lia. destruct (Z.eqb_spec (Z.of_nat r) (j mod 4)) as [E|E].
           ++ split; [lia|]. split; [|reflexivity]. intros _. assert (0 <= (j + 1 - 1 - Z.of_nat r) mod 4) by (apply Z.mod_pos_bound; lia). lia.
           ++ split; [lia|]. split; [|reflexivity]. intros Hr4. specialize (G2 Hr4). apply (mod4_next j (Z.of_nat r) h); [lia|exact E|exact G2].
Qed.

(** ** Decoding one frame *)
Notation still := (cf_still c).
Definition dst (i : nat) : dstate := DState (ddpb i) (cvs i) false.

(** The slots seen by an inter frame. *)
Lemma inter_slots i fi : snd (pos i) < L -> entry i = Some fi -> is_key (fi_type fi) = false ->
  fi_input fi = snd (pos i) + fi_hint fi /\
  (forall r, (r < 8)%nat -> exists h w, SlotAt i (snd (pos i)) r h w) /\
  (fi_sef fi = false -> forall r, In r (fi_refs fi) -> exists h w, SlotAt i (snd (pos i)) (Z.to_nat r) h w /\ h <> fi_hint fi /\ Z.abs (fi_hint fi - h) < 32) /\
  (fi_sef fi = true -> SlotAt i (snd (pos i)) (Z.to_nat (fi_map_idx fi)) (fi_hint fi) true).
Proof.
  intros HL Ee Hk. destruct (entry_shape c scene ps Hc Hps i fi HL Ee Hk) as [Hj Esh].
  destruct (pos_facts c iskey L i) as (Hgo & Hgs & HP). destruct (HP HL) as (Hg & _ & Hrm). specialize (Hrm Hj).
  set (gs := snd (pos i)) in *. set (j := Z.of_nat i - fst (pos i)) in *.
  assert (SI := slots_inv i HL Hj). fold gs j in SI.
  destruct (nkf_spec c iskey L gs ltac:(lia) Hg) as [Hnk Hends].
  assert (Hlt : gs + hintz c j < nkf gs).
  { assert (Hlb := hintz_lb c iskey j Hj). assert (HIg := ILg c iskey j Hj).
    unfold Sched_plan.entry, entry_at in Ee. fold gs j in Ee. destruct (Z.eqb_spec j 0); [lia|]. unfold inputz in Ee.
    destruct (Z.eqb_spec j 0); [lia|]. rewrite Hends in Ee by lia. destruct (Z.leb_spec (nkf gs) (gs + hintz c j)); [discriminate|lia]. }
  assert (Hall : forall r, (r < 8)%nat -> exists h w, SlotAt i gs r h w).
  { intros r Hr. destruct (SI r Hr) as (h & w & H & _). eauto. }
  assert (Hxr := ridx_range c iskey j). assert (Hg0 := gidx_nonneg c iskey j Hj).
  destruct (shape_refs c gs j (ts i) Hj) as (Hrf & _). rewrite <- Esh in Hrf.
  unfold good in SI. destruct (ic_reorder c) eqn:Er.
  - destruct (cases_mode c) as [(_ & _ & EI & EO)|(E0 & _)]; [|congruence]. rewrite EO in Hxr. rewrite (hintz_fh j Er Hj) in Hlt. rewrite EI in Hrm.
    destruct (shape_reorder gs j (ts i) Er ltac:(lia)) as (F1 & F2 & F3 & F4 & F5 & F6 & F7 & F8). rewrite <- Esh in *.
    split; [exact F2|]. split; [exact Hall|]. split.
    + intros Hsf r Hr. assert (RC := refs_close (nkf gs - gs) (gidx c j) (ridx c j) Hg0 ltac:(lia) ltac:(lia)).
      rewrite Forall_forall in RC, Hrf. specialize (Hrf r Hr). assert (Hr2 := Hr). rewrite F6 in Hr2. specialize (RC r Hr2).
      destruct (SI (Z.to_nat r) ltac:(lia)) as (h & w & HS & -> & ->). rewrite Z2Nat.id in HS by lia.
      exists (Hs (nkf gs - gs) (gidx c j) (ridx c j) r), (Ws (nkf gs - gs) (gidx c j) (ridx c j) r).
      split; [exact HS|]. rewrite F1. split; [|lia].
      apply refs_other; [lia|lia|lia|rewrite <- F4; exact Hsf|exact Hr2].
    + intros Hsf. assert (Hm := fslot_range (gidx c j) (ridx c j)). rewrite F3.
      destruct (SI (Z.to_nat (fslot (gidx c j) (ridx c j))) ltac:(lia)) as (h & w & HS & Eh & Ew).
      rewrite Z2Nat.id in Eh, Ew by lia. rewrite F4 in Hsf. rewrite F1.
      destruct (sef_slot (nkf gs - gs) (gidx c j) (ridx c j)) as [E1 E2]; [lia|lia|lia|exact Hsf|].
      rewrite E1 in Eh. rewrite E2 in Ew. subst h w. exact HS.
  - destruct (cases_mode c) as [(E0 & _)|(_ & _ & EI & EO)]; [congruence|].
    unfold shape in Esh. rewrite Er in Esh. rewrite Esh. cbn [fi_input fi_hint fi_sef fi_refs].
    split; [reflexivity|]. split; [exact Hall|]. split; [|discriminate]. intros _ r Hr.
    assert (M3 : 0 <= (j + 3) mod 4 < 4) by (apply Z.mod_pos_bound; lia). assert (M2 : 0 <= (j + 2) mod 4 < 4) by (apply Z.mod_pos_bound; lia).
    assert (Hr4 : 0 <= r < 4). { destruct (cf_multiref c); cbn [In] in Hr; lia. }
    destruct (SI (Z.to_nat r) ltac:(lia)) as (h & w & HS & G1 & G2 & ->). exists h, false. split; [exact HS|].
    specialize (G2 ltac:(lia)). assert (0 <= (j - 1 - Z.of_nat (Z.to_nat r)) mod 4 < 4) by (apply Z.mod_pos_bound; lia). lia.
Qed.

Lemma slotat_dec i gs r h w : SlotAt i gs r h w -> exists k, k < Z.of_nat i /\
  nth r (real i) None = Some (RefFrame h k (Recon (gs + h) k)) /\
  nth r (ddpb i) None = Some (DSlot (h mod 64) (Recon (gs + h) k) w (cvs i)).
Proof. intros (k & H1 & H2 & H3). exists k. split; [lia|auto]. Qed.

Lemma dec_frame i fi : snd (pos i) < L -> entry i = Some fi ->
  exists ev, dec_obus still (dst i) (frame_obus i fi) = Some (dst (S i), ev) /\ Forall (ev_ok still) ev /\
    (fi_show fi = true -> exists k, frame_pic i fi = Some (Recon (fi_input fi) k) /\ shown_of ev = [Recon (fi_input fi) k]) /\
    (fi_show fi = false -> shown_of ev = []).
Proof.
  intros HL Ee. unfold Sched_plan.frame_obus.
  destruct (is_key (fi_type fi)) eqn:Hk.
  - (* key frame *)
    destruct (entry_key c scene ps i fi Ee Hk) as (_ & H255 & Hsf & Hsh & Hh). assert (Ht : fi_type fi = KEY) by (destruct (fi_type fi); [reflexivity|discriminate|discriminate]).
    rewrite Hsf. unfold header_of. cbn [fd_fi fd_rec]. rewrite Hsf, Ht, Hsh, H255, Hh. cbn [is_key negb andb].
    cbn [app dec_obus dec_obu]. rewrite dec_obus_app, dec_t35. cbn [dec_obus dec_obu dst d_slots d_cvs d_seq h_sef h_type h_show h_refresh h_hint pl_refs pl_input pl_out].
    change (255 =? 255) with true. cbn [andb list_eqb app].
    eexists. split; [|split; [|split]].
    + f_equal. f_equal. unfold dst. cbn [ddpb cvs]. rewrite Ee, Hk, Hsf, Hsh, H255, Hh. reflexivity.
    + constructor; [exact Coq.Init.Logic.I|]. apply Forall_app. split; [apply Forall_forall; intros x Hx; apply in_map_iff in Hx; destruct Hx as (y & <- & _); exact Coq.Init.Logic.I|].
      repeat constructor.
    + intros _. exists (Z.of_nat i). unfold Sched_plan.frame_pic. rewrite Hsf. split; [reflexivity|].
      cbn [shown_of]. rewrite shown_app, shown_meta. reflexivity.
    + discriminate.
  - destruct (inter_slots i fi HL Ee Hk) as (Hin & Hall & Href & Hsef).
    destruct (entry_shape c scene ps Hc Hps i fi HL Ee Hk) as [Hj Esh].
    destruct (shape_refs c (snd (pos i)) (Z.of_nat i - fst (pos i)) (ts i) Hj) as (Hrf & _ & Hl7 & Hmap & _ & Hss). rewrite <- Esh in Hrf, Hl7, Hmap, Hss.
    cbn [app]. rewrite dec_obus_app, dec_t35.
    destruct (fi_sef fi) eqn:Hsf.
    + (* show existing *)
      specialize (Hsef eq_refl). destruct (slotat_dec _ _ _ _ _ Hsef) as (k & Hki & Hreal & Hdd). clear Href.
      unfold header_of. cbn [fd_fi]. rewrite Hsf. cbn [dec_obus dec_obu h_sef h_map_idx negb].
      destruct (Z.leb_spec 0 (fi_map_idx fi)); [|lia]. destruct (Z.ltb_spec (fi_map_idx fi) 8); [|lia]. cbn [andb negb].
      cbn [dst d_slots d_cvs d_seq]. rewrite Hdd. cbn [ds_showable ds_hint ds_pic ds_cvs].
      eexists. split; [|split; [|split]].
      * f_equal. f_equal. unfold dst. cbn [ddpb cvs]. rewrite Ee, Hk, Hsf. cbn [b2z]. rewrite Z.add_0_r, Hdd. reflexivity.
      * apply Forall_app. split; [apply Forall_forall; intros x Hx; apply in_map_iff in Hx; destruct Hx as (y & <- & _); exact Coq.Init.Logic.I|].
        repeat constructor.
      * intros _. exists k. unfold Sched_plan.frame_pic, slot. rewrite Hsf, Hreal, Hin. split; [reflexivity|].
        rewrite shown_app, shown_meta. reflexivity.
      * intros Hsh. rewrite (Hss eq_refl) in Hsh. discriminate.
    + (* coded inter frame *)
      clear Hsef. specialize (Href eq_refl).
      set (dg := fun r : Z => match nth (Z.to_nat r) (ddpb i) None with Some x => x | None => DSlot 0 (Source 0) false 0 end).
      assert (Hrefs : all_some (map (fun r => nth (Z.to_nat r) (ddpb i) None) (fi_refs fi)) = Some (map dg (fi_refs fi))).
      { apply all_some_map. intros r Hr. destruct (Href r Hr) as (h & w & HS & _). destruct (slotat_dec _ _ _ _ _ HS) as (k & _ & _ & Hdd).
        unfold dg. rewrite Hdd. reflexivity. }
      set (hd := header_of c (FData fi (real i) [] [] None)).
      set (pl := Payload _ _ _ _ _).
      assert (Hhd : h_sef hd = false /\ h_type hd = fi_type fi /\ h_show hd = fi_show fi /\ h_refs hd = fi_refs fi /\ h_hint hd = fi_hint fi mod 64 /\
                    h_error_res hd = fi_error_res fi /\ h_primary hd = fi_primary fi /\ h_refresh hd = fi_refresh fi).
      { unfold hd, header_of. cbn [fd_fi]. rewrite Hsf, Hk. repeat split. }
      destruct Hhd as (D1 & D2 & D3 & D4 & D5 & D6 & D7 & D8).
      assert (Hckr : list_eqb opic_eqb (pl_refs pl) (map ds_pic (map dg (fi_refs fi))) = true).
      { unfold pl. cbn [pl_refs]. rewrite map_map. apply list_eqb_map. intros r Hr.
        destruct (Href r Hr) as (h & w & HS & _). destruct (slotat_dec _ _ _ _ _ HS) as (k & _ & Hre & Hdd).
        unfold dg, slot. rewrite Hre, Hdd. cbn. rewrite !Z.eqb_refl. reflexivity. }
      assert (Hcks : list_eqb same_slot (pl_slots pl) (ddpb i) = true).
      { unfold pl. cbn [pl_slots]. apply (list_eqb_nth same_slot None None); [rewrite ddpb_length; apply dpb_length|].
        intros n Hn. assert (Hn8 : (n < 8)%nat) by (unfold Sched_plan.real in Hn; rewrite dpb_length in Hn; exact Hn).
        destruct (Hall n Hn8) as (h & w & HS). destruct (slotat_dec _ _ _ _ _ HS) as (k & _ & Hre & Hdd).
        rewrite Hre, Hdd. cbn [same_slot rf_hint rf_pic ds_hint ds_pic pic_eqb]. rewrite !Z.eqb_refl. reflexivity. }
      assert (Hckb : list_eqb Bool.eqb (pl_bias pl) (map (fun r => negb still && (0 <? dist6 (ds_hint r) (h_hint hd))) (map dg (fi_refs fi))) = true).
      { unfold pl, sign_bias. cbn [pl_bias]. rewrite map_map. apply list_eqb_map. intros r Hr.
        destruct (Href r Hr) as (h & w & HS & _). destruct (slotat_dec _ _ _ _ _ HS) as (k & _ & Hre & Hdd).
        unfold dg, slot. rewrite Hre, Hdd, D5. cbn [rf_hint ds_hint]. rewrite relative_dist_dist6. destruct still; [reflexivity|].
        cbn [negb andb]. apply Bool.eqb_reflx. }
      assert (Hckh : negb (h_error_res hd) || still || list_eqb Z.eqb (h_ref_hints hd) (map (fun x => match x with Some x => ds_hint x | None => 0 end) (ddpb i)) = true).
      { rewrite D6. unfold hd, header_of. cbn [fd_fi fd_rec]. rewrite Hsf, Hk. cbn [h_ref_hints negb andb].
        destruct (fi_error_res fi); [|reflexivity]. destruct still; [reflexivity|]. cbn [negb andb orb].
        assert (E : map (fun o => match o with Some r => rf_hint r mod 64 | None => 0 end) (real i) =
                    map (fun x => match x with Some x => ds_hint x | None => 0 end) (ddpb i)).
        { apply (nth_ext _ _ 0 0); [rewrite !map_length, ddpb_length; apply dpb_length|].
          intros n Hn. rewrite map_length in Hn. assert (Hn8 : (n < 8)%nat) by (unfold Sched_plan.real in Hn; rewrite dpb_length in Hn; exact Hn).
          destruct (Hall n Hn8) as (h & w & HS). destruct (slotat_dec _ _ _ _ _ HS) as (k & _ & Hre & Hdd).
          rewrite (nth_map_opt _ (real i) n eq_refl), (nth_map_opt _ (ddpb i) n eq_refl), Hre, Hdd. reflexivity. }
        rewrite E. apply list_eqb_refl. }
      assert (Hsw : match fi_type fi with SWITCH => fi_show fi && (fi_refresh fi =? 255) && fi_error_res fi | _ => true end = true /\
                    negb (fi_error_res fi) || (fi_primary fi =? 7) = true /\ 0 <= fi_primary fi <= 7).
      { rewrite Esh. apply shape_primary. }
      destruct Hsw as (Hsw & Hpr & Hpr2).
      assert (Hhint : 0 <= fi_hint fi mod 64 < 64) by (apply Z.mod_pos_bound; reflexivity).
      cbn [dec_obus]. unfold dec_obu. cbn [dst d_slots d_cvs d_seq]. rewrite D1, D2, D3, D4, D6, D7, D8.
      rewrite Hl7, Nat.eqb_refl. replace (forallb (fun r => (0 <=? r) && (r <? 8)) (fi_refs fi)) with true.
      2:{ symmetry. apply forallb_forall. intros r Hr. rewrite Forall_forall in Hrf. specialize (Hrf r Hr). apply andb_true_iff. split; [apply Z.leb_le|apply Z.ltb_lt]; apply Hrf. }
      cbn [andb negb]. rewrite Hrefs, Hckr, Hcks, Hckb. rewrite D6 in Hckh. rewrite Hckh, Hpr.
      replace (0 <=? fi_primary fi) with true by (symmetry; apply Z.leb_le; first [apply Hpr2|apply Hhint]).
      replace (fi_primary fi <=? 7) with true by (symmetry; apply Z.leb_le; first [apply Hpr2|apply Hhint]). rewrite D5.
      replace (0 <=? fi_hint fi mod 64) with true by (symmetry; apply Z.leb_le; first [apply Hpr2|apply Hhint]).
      replace (fi_hint fi mod 64 <? 64) with true by (symmetry; apply Z.ltb_lt; apply Hhint).
      cbn [andb]. rewrite !andb_true_r.
      assert (EV : ev_ok still (Decoded hd pl (map dg (fi_refs fi)) (cvs i))).
      { unfold ev_ok. rewrite D2, D5. assert (X : length (map dg (fi_refs fi)) = 7%nat /\ pl_refs pl = map (fun x => Some (ds_pic x)) (map dg (fi_refs fi)) /\
          Forall (fun x => ds_cvs x = cvs i /\ exists n k, ds_pic x = Recon n k /\ k < pl_out pl /\ n <> pl_input pl /\
                     dist6 (fi_hint fi mod 64) (ds_hint x) = pl_input pl - n) (map dg (fi_refs fi)) /\
          (still = false -> pl_bias pl = map (fun x => match ds_pic x with Recon n _ => pl_input pl <? n | Source _ => false end) (map dg (fi_refs fi)))).
        { split; [rewrite map_length; exact Hl7|]. split.
          { unfold pl. cbn [pl_refs]. rewrite map_map. apply map_ext_in. intros r Hr.
            destruct (Href r Hr) as (h & w & HS & _). destruct (slotat_dec _ _ _ _ _ HS) as (k & _ & Hre & Hdd).
            unfold dg, slot. rewrite Hre, Hdd. reflexivity. }
          split.
          - apply Forall_forall. intros x Hx. apply in_map_iff in Hx. destruct Hx as (r & <- & Hr).
            destruct (Href r Hr) as (h & w & HS & Hne & Hab). destruct (slotat_dec _ _ _ _ _ HS) as (k & Hki & _ & Hdd).
            unfold dg. rewrite Hdd. cbn [ds_cvs ds_pic ds_hint]. split; [reflexivity|]. exists (snd (pos i) + h), k.
            unfold pl. cbn [pl_out pl_input]. split; [reflexivity|]. split; [exact Hki|]. rewrite dist6_exact by exact Hab. clear - Hne Hin. split; lia.
          - intros Hst. unfold pl, sign_bias. cbn [pl_bias pl_input]. rewrite map_map. apply map_ext_in. intros r Hr.
            destruct (Href r Hr) as (h & w & HS & Hne & Hab). destruct (slotat_dec _ _ _ _ _ HS) as (k & Hki & Hre & Hdd).
            unfold dg, slot. rewrite Hre, Hdd, Hst. cbn [rf_hint ds_pic]. rewrite relative_dist_dist6, dist6_exact by (clear - Hab; lia).
            clear - Hin Hne.
            destruct (Z.ltb_spec 0 (h - fi_hint fi)), (Z.ltb_spec (fi_input fi) (snd (pos i) + h)); try reflexivity; lia. }
        destruct (fi_type fi); [discriminate|exact X|exact X]. }
      assert (Fin : exists ev, (if match fi_type fi with SWITCH => fi_show fi && (fi_refresh fi =? 255) && fi_error_res fi | _ => true end then
          match Some (DState (update 0 (fi_refresh fi) (DSlot (fi_hint fi mod 64) (Recon (pl_input pl) (pl_out pl)) (negb (fi_show fi)) (cvs i)) (ddpb i)) (cvs i) false,
                Decoded hd pl (map dg (fi_refs fi)) (cvs i) :: (if fi_show fi then [Shown (Recon (pl_input pl) (pl_out pl))] else [])) with
          | Some (d, e0) => Some (d, map Meta (fi_t35 fi) ++ e0 ++ []) | None => None end else None) = Some (dst (S i), ev) /\ Forall (ev_ok still) ev /\
        (fi_show fi = true -> exists k, frame_pic i fi = Some (Recon (fi_input fi) k) /\ shown_of ev = [Recon (fi_input fi) k]) /\
        (fi_show fi = false -> shown_of ev = [])).
      { rewrite Hsw. eexists. split; [|split; [|split]].
        - f_equal. f_equal. unfold dst. cbn [ddpb cvs]. rewrite Ee, Hk, Hsf. cbn [b2z]. rewrite Z.add_0_r. reflexivity.
        - apply Forall_app. split; [apply Forall_forall; intros x Hx; apply in_map_iff in Hx; destruct Hx as (y & <- & _); exact Coq.Init.Logic.I|].
          rewrite app_nil_r. constructor; [exact EV|]. destruct (fi_show fi); repeat constructor.
        - intros Hsh. rewrite Hsh. exists (Z.of_nat i). unfold Sched_plan.frame_pic. rewrite Hsf. split; [reflexivity|].
          rewrite shown_app, shown_meta. reflexivity.
        - intros Hsh. rewrite Hsh. rewrite shown_app, shown_meta. reflexivity. }
      destruct Fin as (ev & Fin & Hrest). exists ev. split; [|exact Hrest]. rewrite <- Fin.
      destruct (fi_type fi); [discriminate|reflexivity|]. destruct (fi_show fi && (fi_refresh fi =? 255) && fi_error_res fi); reflexivity.
Qed.

(** ** Decoding all packets *)

Definition body_ok (l : list obu) : Prop := forallb (fun o => negb (is_td o) && negb (shows o)) l = true.
Lemma frame_obus_split i fi : snd (pos i) < L -> entry i = Some fi -> exists body lst, frame_obus i fi = body ++ [lst] /\ body_ok body /\
  is_td lst = false /\ shows lst = fi_show fi.
Proof.
  intros HL Ee. unfold Sched_plan.frame_obus. rewrite app_assoc. eexists. eexists. split; [reflexivity|]. split; [|split].
  - unfold body_ok. rewrite forallb_app. apply andb_true_iff. split; [destruct (is_key (fi_type fi)); reflexivity|].
    rewrite forallb_forall. intros x Hx. apply in_map_iff in Hx. destruct Hx as (y & <- & _). reflexivity.
  - destruct (fi_sef fi); reflexivity.
  - destruct (fi_sef fi) eqn:Hsf.
    + destruct (is_key (fi_type fi)) eqn:Hk.
      * destruct (entry_key c scene ps i fi Ee Hk) as (_ & _ & Hsf2 & _). congruence.
      * destruct (entry_shape c scene ps Hc Hps i fi HL Ee Hk) as [Hj Esh].
        destruct (shape_refs c (snd (pos i)) (Z.of_nat i - fst (pos i)) (ts i) Hj) as (_ & _ & _ & _ & _ & Hss). rewrite <- Esh in Hss.
        rewrite (Hss Hsf). reflexivity.
    + unfold shows, header_of. cbn [fd_fi]. rewrite Hsf. reflexivity.
Qed.
Lemma pending_ok e : valid c scene ps e -> exists body, pending e = OTemporalDelimiter :: body /\ body_ok body.
Proof.
  induction e as [|e IH]; intros Hv; [exists []; split; reflexivity|].
  cbn [Sched_plan.pending]. destruct (IH (valid_S c scene ps _ Hv)) as (body & Eb & Hb).
  destruct (entry e) as [fi|] eqn:Ee; [|exists body; auto].
  destruct (fi_show fi) eqn:Es; [exists []; split; reflexivity|].
  destruct (frame_obus_split e fi (Hv e ltac:(lia)) Ee) as (b2 & lst & E2 & Hb2 & Ht & Hs2).
  exists (body ++ b2 ++ [lst]). rewrite Eb, E2. split; [reflexivity|]. unfold body_ok in *. rewrite !forallb_app, Hb, Hb2. cbn [forallb].
  rewrite Ht, Hs2, Es. reflexivity.
Qed.
Lemma packet_unit i fi : valid c scene ps (S i) -> entry i = Some fi -> fi_show fi = true -> temporal_unit (p_data (packet_of i fi)).
Proof.
  intros Hv Ee Es. destruct (pending_ok i (valid_S c scene ps _ Hv)) as (body & Eb & Hb).
  destruct (frame_obus_split i fi (Hv i ltac:(lia)) Ee) as (b2 & lst & E2 & Hb2 & Ht & Hs2).
  unfold Sched_plan.packet_of. cbn [p_data]. exists (body ++ b2), lst. rewrite Eb, E2, <- app_assoc. split; [reflexivity|].
  unfold body_ok in *. rewrite forallb_app, Hb, Hb2, Hs2, Es, Ht. auto.
Qed.

(** What the decoder did for a packet. *)
Definition packet_ok (p : packet) (ev : list event) : Prop :=
  Forall (ev_ok still) ev /\ temporal_unit (p_data p) /\
  exists k, p_rec p = Some (Recon (p_input p) k) /\ shown_of ev = [Recon (p_input p) k].

Lemma dec_plan : forall e, valid c scene ps e -> exists d evs pev,
  dec_packets still d_init (packets e) = Some (d, evs) /\ dec_obus still d (pending e) = Some (dst e, pev) /\
  shown_of pev = [] /\ Forall (ev_ok still) pev /\ Forall2 packet_ok (packets e) evs.
Proof.
  induction e as [|e IH]; intros Hv.
  - exists d_init, [], [NewUnit]. repeat split; repeat constructor.
  - destruct (IH (valid_S c scene ps _ Hv)) as (d & evs & pev & E1 & E2 & Hsp & Hfp & HF).
    cbn [Sched_plan.packets Sched_plan.pending]. assert (HL := Hv e ltac:(lia)).
    destruct (entry e) as [fi|] eqn:Ee.
    2:{ exists d, evs, pev. rewrite app_nil_r. assert (Ed : dst (S e) = dst e) by (unfold dst; cbn [ddpb cvs]; rewrite Ee; cbn [b2z]; rewrite Z.add_0_r; reflexivity).
        rewrite Ed. auto 6. }
    destruct (dec_frame e fi HL Ee) as (ev & E3 & Hfe & Hs1 & Hs0).
    destruct (fi_show fi) eqn:Es.
    + specialize (Hs1 eq_refl). destruct Hs1 as (k & Hpic & Hsh). clear Hs0.
      exists (dst (S e)), (evs ++ [pev ++ ev]), [NewUnit].
      split; [|split; [reflexivity|split; [reflexivity|split; [repeat constructor|]]]].
      * rewrite dec_packets_app, E1. cbn [dec_packets]. unfold Sched_plan.packet_of. cbn [p_data]. rewrite dec_obus_app, E2, E3. reflexivity.
      * apply Forall2_app; [exact HF|]. constructor; [|constructor]. split; [apply Forall_app; auto|].
        split; [apply packet_unit; assumption|]. exists k. unfold Sched_plan.packet_of. cbn [p_rec p_input].
        rewrite shown_app, Hsp, Hsh. auto.
    + specialize (Hs0 eq_refl). rewrite app_nil_r. exists d, evs, (pev ++ ev). split; [exact E1|].
      rewrite dec_obus_app, E2, E3. rewrite shown_app, Hsp, Hs0. repeat split; [apply Forall_app; auto|exact HF].
Qed.
End Dec.
