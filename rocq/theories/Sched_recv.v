(** receive_packet preserves the invariant of [Sched_step] and emits the packets
    of the plan in order. *)
From Verif Require Import Base SMap Sched_model Sched_plan Sched_shape Sched_inv Sched_step.

Section Recv.
Variable c : config.
Variable scene : Z -> bool.
Variable ps : list (option params).
Hypothesis Hc : cfg_ok c.
Hypothesis Hps : zlen ps < 2 ^ 31.

Notation iskey := (keyf scene ps).
Notation L := (zlen ps).
Notation t35s := (t35f ps).
Notation opq := (opqf ps).
Notation gstart := (gstart c iskey).
Notation ends := (ends c iskey L).
Notation nkf := (nkf c iskey L).
Notation pos := (pos c iskey L).
Notation ppos := (ppos c iskey L).
Notation pre := (pre c iskey L).
Notation taken := (taken c iskey L).
Notation ts := (ts c iskey L t35s).
Notation entry := (entry c iskey L t35s).
Notation coded := (coded c iskey L t35s).
Notation sb := (sb c iskey L).
Notation real := (real c iskey L t35s).
Notation src := (src c iskey L t35s).
Notation dpb := (dpb c iskey L t35s).
Notation pending := (pending c iskey L t35s).
Notation packets := (packets c iskey L t35s opq).
Notation packet_of := (packet_of c iskey L t35s opq).
Notation frame_obus := (frame_obus c iskey L t35s).
Notation frame_pic := (frame_pic c iskey L t35s).
Notation IL := (ic_in_len c).
Notation OL := (ic_out_len c).
Notation InvB := (InvB c scene ps).
Notation HB := (HB c scene ps).
Notation data_ok := (data_ok c scene ps).
Notation nocoded := (nocoded c scene ps).
Notation Inv := (Inv c scene ps).

Let Hkf : 1 <= cf_max_kf c := proj1 Hc.

(** ** The shape of plan entries *)
Lemma entry_shape i fi : snd (pos i) < L -> entry i = Some fi -> is_key (fi_type fi) = false ->
  1 <= Z.of_nat i - fst (pos i) /\ fi = shape c (snd (pos i)) (Z.of_nat i - fst (pos i)) (ts i).
Proof.
  intros HL. assert (Hh := hint_bound c iskey L Hps i HL). destruct (pos_facts c iskey L i) as (Hgo & _).
  unfold Sched_plan.entry, entry_at. destruct (Z.eqb_spec (Z.of_nat i - fst (pos i)) 0) as [E|E].
  - intros [= <-] H. discriminate.
  - destruct (ends _ _); [discriminate|]. intros [= <-] _. split; [lia|].
    apply inter_shape; [exact (proj2 (proj2 (proj2 Hc)))|lia|apply Hh; lia].
Qed.
Lemma entry_sef i fi : snd (pos i) < L -> entry i = Some fi -> fi_sef fi = true -> fi_show fi = true /\ is_key (fi_type fi) = false.
Proof.
  intros HL He Hs. destruct (is_key (fi_type fi)) eqn:Ek.
  - destruct (entry_key c scene ps i fi He Ek) as (_ & _ & F & _). congruence.
  - split; [|reflexivity]. destruct (entry_shape i fi HL He Ek) as [Hj ->]. apply shape_refs; assumption.
Qed.

(** Every slot holds a coded frame of the plan. *)
Lemma dpb_slot mk i r : (1 <= i)%nat -> (r < 8)%nat ->
  exists k fi, (k < i)%nat /\ entry k = Some fi /\ fi_sef fi = false /\ fi_refresh fi <> 0 /\
    nth r (dpb mk i) None = Some (RefFrame (fi_hint fi) (Z.of_nat k) (mk (fi_input fi) (Z.of_nat k))).
Proof.
  intros Hi Hr. destruct i as [|i]; [lia|]. clear Hi. revert r Hr. induction i as [|i IH]; intros r Hr.
  - exists 0%nat. eexists. split; [lia|]. split; [apply entry_0|]. split; [reflexivity|]. split; [discriminate|].
    cbn [Sched_plan.dpb]. rewrite entry_0. cbn [fi_sef new_key_frame fd_fi fi_refresh].
    rewrite refresh_all by reflexivity. do 8 (destruct r as [|r]; [reflexivity|]). lia.
  - remember (S i) as m eqn:Em. cbn [Sched_plan.dpb].
    assert (IH' : exists k fi, (k < S m)%nat /\ entry k = Some fi /\ fi_sef fi = false /\ fi_refresh fi <> 0 /\
       nth r (dpb mk m) None = Some (RefFrame (fi_hint fi) (Z.of_nat k) (mk (fi_input fi) (Z.of_nat k)))).
    { destruct (IH r Hr) as (k & fi & H1 & H2). exists k, fi. split; [lia|exact H2]. }
    destruct (entry m) as [fi|] eqn:Ee; [|exact IH']. destruct (fi_sef fi) eqn:Es; [exact IH'|].
    unfold refresh. assert (Hl : length (dpb mk m) = 8%nat) by apply dpb_length.
    assert (X : forall s k0 r, (r < length s)%nat -> nth r (refresh_from k0 (fi_refresh fi) (RefFrame (fi_hint fi) (Z.of_nat m) (mk (fi_input fi) (Z.of_nat m))) s) None =
       if Z.testbit (fi_refresh fi) (k0 + Z.of_nat r) then Some (RefFrame (fi_hint fi) (Z.of_nat m) (mk (fi_input fi) (Z.of_nat m))) else nth r s None).
    { induction s as [|x s IHs]; intros k0 q Hq; cbn [length] in Hq; [lia|]. cbn [refresh_from]. destruct q as [|q].
      - rewrite Z.add_0_r. cbn [nth]. destruct (Z.testbit _ _); reflexivity.
      - cbn [nth]. rewrite IHs by lia. replace (k0 + 1 + Z.of_nat q) with (k0 + Z.of_nat (S q)) by lia. reflexivity. }
    rewrite X by lia. destruct (Z.testbit _ _) eqn:Et; [|exact IH'].
    exists m, fi. split; [lia|]. split; [exact Ee|]. split; [exact Es|]. split; [|reflexivity].
    intros E0. rewrite E0, Z.bits_0 in Et. discriminate.
Qed.

(** ** Skipping placeholders *)
Definition allnone (e i : nat) : Prop := forall m, (e <= m < i)%nat -> entry m = None.
Lemma allnone_nocoded e i : allnone e i -> nocoded e i.
Proof. intros H m Hm. unfold Sched_plan.coded. rewrite (H m Hm). reflexivity. Qed.

Lemma skip_sb e i : (e <= i)%nat -> allnone e i -> (forall m, (m < i)%nat -> snd (pos m) < L) ->
  sb i = sb e /\ pending i = pending e /\ packets i = packets e.
Proof.
  induction 1 as [|i Hi IH]; [auto|]. intros Hn HL.
  destruct IH as (H1 & H2 & H3); [intros m Hm; apply Hn; lia|intros m Hm; apply HL; lia|].
  rewrite (sb_S c iskey L t35s) by (apply HL; lia). cbn [Sched_plan.pending Sched_plan.packets].
  rewrite (Hn i) by lia. cbn. rewrite app_nil_r. split; [lia|]. split; assumption.
Qed.

Lemma nocoded_split e i k : nocoded e i -> nocoded i k -> nocoded e k.
Proof. intros H1 H2 m Hm. destruct (Nat.lt_ge_cases m i); [apply H1; lia|apply H2; lia]. Qed.

(** A frame's data does not depend on the emission point moving past non-coded
    frames. *)
Lemma data_ok_move e e' i x : (e <= e')%nat -> nocoded e e' -> data_ok e i x -> data_ok e' i x.
Proof.
  intros He Hn. unfold data_ok. destruct (entry i) as [fi|], x as [d|]; auto.
  intros (H1 & H2 & H3). split; [exact H1|]. split; [exact H2|]. intros Hi. destruct (H3 ltac:(lia)) as (H4 & H5 & H6).
  split; [exact H4|]. split; [exact H5|]. intros Hk. destruct (H6 Hk) as [H7 H8]. split; [|exact H8].
  intros Hnc. apply H7. apply (nocoded_split e e' i); assumption.
Qed.

Lemma InvB_skip s fl lo e e' o ds : InvB s fl lo e o ds -> (e <= e' <= o)%nat -> allnone e e' ->
  InvB (set_out (Z.of_nat e') s) fl lo e' o ds.
Proof.
  intros I He Hn. destruct (skip_sb e e') as (S1 & S2 & S3); [lia|exact Hn|intros m Hm; apply (b_valid _ _ _ _ _ _ _ _ _ I); lia|].
  destruct I. constructor;
    cbn [set_out s_frame_count s_limit s_out s_processed s_frame_q s_data s_keyframes
    s_forced s_packet_data s_gop_out s_gop_in s_next_la s_next_la_out s_opaque s_t35 s_flushing]; rewrite ?S1, ?S2; try assumption; try reflexivity.
  - intros i H1 H2. apply (data_ok_move e); [lia|apply allnone_nocoded; exact Hn|]. apply b_dat; assumption.
  - lia.
Qed.

(** ** The coded frames ahead *)
Definition cl (m : smap (option fdata)) : list (Z * fdata) :=
  filter (fun kd => negb (fi_sef (fd_fi (snd kd))))
       (flat_map (fun kd => match snd kd with Some d => [(fst kd, d)] | None => [] end) m).
Lemma cl_cons_coded k d r : fi_sef (fd_fi d) = false -> cl ((k, Some d) :: r) = (k, d) :: cl r.
Proof. intros H. unfold cl. cbn. rewrite H. reflexivity. Qed.
Lemma cl_cons_skip k x r : (match x with Some d => fi_sef (fd_fi d) = true | None => True end) -> cl ((k, x) :: r) = cl r.
Proof. destruct x as [d|]; intros H; unfold cl; cbn; [rewrite H|]; reflexivity. Qed.

Lemma cl_in : forall ds (k : nat) id, In id (cl (zmap (Z.of_nat k) ds)) ->
  exists m, fst id = Z.of_nat m /\ (k <= m < k + length ds)%nat /\ dat (Z.of_nat k) ds m = Some (snd id) /\ fi_sef (fd_fi (snd id)) = false.
Proof.
  intros ds k id H. unfold cl in H. apply filter_In in H. destruct H as [H Hs].
  apply in_flat_map in H. destruct H as ((k0 & x) & Hin & Hx).
  destruct x as [d|]; [|contradiction]. cbn in Hx. destruct Hx as [<-|[]]. cbn [fst snd] in *.
  assert (Hk := zmap_keys _ _ _ _ Hin). cbn [fst] in Hk. exists (Z.to_nat k0). split; [lia|].
  unfold zlen in Hk. split; [lia|]. split; [|destruct (fi_sef _); [discriminate|reflexivity]].
  clear Hs. revert k Hin Hk. induction ds as [|y r IH]; intros k Hin Hk; cbn [zmap In] in Hin; [contradiction|].
  destruct Hin as [[= <- ->]|Hin].
  - unfold dat. rewrite Nat2Z.id, Z.sub_diag. reflexivity.
  - replace (Z.of_nat k + 1) with (Z.of_nat (S k)) in Hin by lia. assert (Hk2 := zmap_keys _ _ _ _ Hin). cbn [fst] in Hk2.
    unfold zlen in Hk2. rewrite dat_cons by lia. replace (Z.of_nat k + 1) with (Z.of_nat (S k)) by lia. apply IH; [exact Hin|lia].
Qed.

Lemma cl_two : forall ds (k : nat), (2 <= length (cl (zmap (Z.of_nat k) ds)))%nat ->
  exists m1 m2 d1 d2, (k <= m1 < m2)%nat /\ (m2 < k + length ds)%nat /\
    dat (Z.of_nat k) ds m1 = Some d1 /\ fi_sef (fd_fi d1) = false /\
    dat (Z.of_nat k) ds m2 = Some d2 /\ fi_sef (fd_fi d2) = false.
Proof.
  induction ds as [|x r IH]; intros k H; [cbn in H; lia|]. cbn [zmap] in H.
  replace (Z.of_nat k + 1) with (Z.of_nat (S k)) in H by lia.
  assert (C : (exists d, x = Some d /\ fi_sef (fd_fi d) = false) \/ match x with Some d => fi_sef (fd_fi d) = true | None => True end).
  { destruct x as [d|]; [|right; exact Coq.Init.Logic.I]. destruct (fi_sef (fd_fi d)) eqn:E; [right; reflexivity|left; eauto]. }
  destruct C as [(d & -> & Hd)|C].
  - rewrite cl_cons_coded in H by exact Hd. cbn [length] in H.
    destruct (cl (zmap (Z.of_nat (S k)) r)) as [|id l] eqn:E; [cbn in H; lia|].
    destruct (cl_in r (S k) id) as (m & H1 & H2 & H3 & H4); [rewrite E; left; reflexivity|].
    exists k, m, d, (snd id). split; [lia|]. cbn [length]. split; [lia|].
    split; [unfold dat; rewrite Z.sub_diag; reflexivity|]. split; [exact Hd|].
    split; [rewrite dat_cons by lia; replace (Z.of_nat k + 1) with (Z.of_nat (S k)) by lia; exact H3|exact H4].
  - rewrite cl_cons_skip in H by exact C. destruct (IH (S k) H) as (m1 & m2 & d1 & d2 & H1 & H2 & H3 & H4 & H5 & H6).
    exists m1, m2, d1, d2. split; [lia|]. cbn [length]. split; [lia|].
    rewrite !dat_cons by lia. replace (Z.of_nat k + 1) with (Z.of_nat (S k)) by lia. repeat split; assumption.
Qed.

Lemma nth_skipn {A} (l : list A) n m d : nth m (skipn n l) d = nth (n + m) l d.
Proof.
  revert l. induction n as [|n IH]; intros l; [reflexivity|]. destruct l as [|x l]; [destruct m; reflexivity|]. apply IH.
Qed.
Lemma dat_skip (lo : Z) (ds : list (option fdata)) (e m : nat) : lo <= Z.of_nat e -> (e <= m)%nat ->
  dat (Z.of_nat e) (skipn (Z.to_nat (Z.of_nat e - lo)) ds) m = dat lo ds m.
Proof.
  intros H1 H2. unfold dat. rewrite nth_skipn. f_equal. lia.
Qed.

Lemma rdo_cl s fl lo e o ds : InvB s fl lo e o ds ->
  rdo_frames c s = firstn (Z.to_nat (cf_rdo_la c + 1)) (cl (zmap (Z.of_nat e) (skipn (Z.to_nat (Z.of_nat e - lo)) ds))).
Proof.
  intros I. unfold rdo_frames. rewrite (b_out _ _ _ _ _ _ _ _ _ I), (b_data _ _ _ _ _ _ _ _ _ I).
  rewrite zmap_from by (pose proof (b_lo _ _ _ _ _ _ _ _ _ I); lia). reflexivity.
Qed.
Lemma skip_len s fl lo e o ds : InvB s fl lo e o ds ->
  length (skipn (Z.to_nat (Z.of_nat e - lo)) ds) = (o - e)%nat.
Proof.
  intros I. rewrite skipn_length. assert (H := b_len _ _ _ _ _ _ _ _ _ I). pose proof (b_lo _ _ _ _ _ _ _ _ _ I).
  unfold zlen in H. lia.
Qed.

(** Enough lookahead: two coded frames ahead. *)
Lemma two_coded s fl lo e o ds : InvB s fl lo e o ds -> needs_more_fi c s = false -> s_flushing s = false ->
  exists m1 m2, (e <= m1 < m2)%nat /\ (m2 < o)%nat /\ coded m1 = true /\ coded m2 = true.
Proof.
  intros I Hn Hf. unfold needs_more_fi, needs_more_frames in Hn. rewrite (b_lim _ _ _ _ _ _ _ _ _ I), Hf, andb_true_r in Hn.
  assert (H : (2 <= length (rdo_frames c s))%nat).
  { assert (H1 := proj1 (proj2 Hc)). unfold zlen in Hn. lia. }
  rewrite (rdo_cl _ _ _ _ _ _ I), firstn_length in H.
  destruct (cl_two _ e (Nat.le_trans _ _ _ H (Nat.le_min_r _ _))) as (m1 & m2 & d1 & d2 & H1 & H2 & H3 & H4 & H5 & H6).
  rewrite (skip_len _ _ _ _ _ _ I) in H2. pose proof (b_lo _ _ _ _ _ _ _ _ _ I) as (Hlo & Heo).
  rewrite dat_skip in H3, H5 by lia.
  exists m1, m2. split; [exact H1|]. split; [lia|].
  assert (D1 := b_dat _ _ _ _ _ _ _ _ _ I m1 ltac:(lia) ltac:(lia)). rewrite H3 in D1. apply data_ok_some in D1.
  assert (D2 := b_dat _ _ _ _ _ _ _ _ _ I m2 ltac:(lia) ltac:(lia)). rewrite H5 in D2. apply data_ok_some in D2.
  unfold Sched_plan.coded. rewrite D1, D2, H4, H6. auto.
Qed.

(** Something to emit. *)
Lemma next_entry s fl lo e o ds : InvB s fl lo e o ds -> (exists m, (e <= m < o)%nat /\ entry m <> None) ->
  exists e1 d, (e <= e1 < o)%nat /\ allnone e e1 /\ dat lo ds e1 = Some d /\
    find_entry (fun kd : Z * option fdata => match snd kd with Some _ => true | None => false end)
          (from_key (s_out s) (s_data s)) = Some (Z.of_nat e1, Some d).
Proof.
  intros I (m & Hm & Hne). rewrite (b_out _ _ _ _ _ _ _ _ _ I), (b_data _ _ _ _ _ _ _ _ _ I).
  pose proof (b_lo _ _ _ _ _ _ _ _ _ I) as (Hlo & Heo).
  rewrite zmap_from by lia. unfold find_entry.
  set (p := fun kd : Z * option fdata => match snd kd with Some _ => true | None => false end).
  assert (F := find_zmap _ p (skipn (Z.to_nat (Z.of_nat e - lo)) ds) e).
  rewrite (skip_len _ _ _ _ _ _ I) in F.
  assert (PN : forall q, (e <= q < o)%nat -> p (Z.of_nat q, dat (Z.of_nat e) (skipn (Z.to_nat (Z.of_nat e - lo)) ds) q) = false -> entry q = None).
  { intros q Hq. rewrite dat_skip by lia. unfold p. cbn [snd].
    assert (D := b_dat _ _ _ _ _ _ _ _ _ I q ltac:(lia) ltac:(lia)). destruct (dat lo ds q); [discriminate|].
    intros _. apply (data_ok_none _ _ _ _ _ D). }
  destruct (find p _) as [[k x]|].
  - destruct F as (i & -> & Hi & -> & Hp & Hq). rewrite dat_skip in * by lia.
    destruct (dat lo ds i) as [d|] eqn:Ed; [|discriminate]. exists i, d. split; [lia|].
    split; [|split; [exact Ed|reflexivity]]. intros q Hq0. apply PN; [lia|]. apply Hq. lia.
  - exfalso. apply Hne. apply PN; [lia|]. apply F. lia.
Qed.

(** ** Reading the frame to emit *)
Lemma fc_pos s fl lo e o ds : InvB s fl lo e o ds -> (0 < o)%nat -> 1 <= s_frame_count s.
Proof.
  intros I Ho. assert (H := b_valid _ _ _ _ _ _ _ _ _ I 0%nat Ho). change (snd (pos 0)) with 0 in H.
  destruct (s_flushing s) eqn:Ef.
  - rewrite (b_flk _ _ _ _ _ _ _ _ _ I Ef). lia.
  - assert (X := b_pre _ _ _ _ _ _ _ _ _ I Ef 0%nat Ho). change (pre 0) with 0 in X. lia.
Qed.
Lemma input_lt s fl lo e o ds i fi : InvB s fl lo e o ds -> (i < o)%nat -> entry i = Some fi -> fi_input fi < s_frame_count s.
Proof.
  intros I Hi He. assert (H := b_seen _ _ _ _ _ _ _ _ _ I i fi Hi He). assert (Hla := b_la _ _ _ _ _ _ _ _ _ I).
  assert (Hfc := fc_pos _ _ _ _ _ _ I ltac:(lia)). assert (Hk := kfl_pos c).
  destruct (s_flushing s) eqn:Ef; [rewrite <- (b_flk _ _ _ _ _ _ _ _ _ I Ef) in Hla|]; lia.
Qed.
Lemma input_ge s fl lo e o ds i fi : InvB s fl lo e o ds -> (e <= i < o)%nat -> entry i = Some fi ->
  sb e <= fi_input fi /\ 0 <= sb e /\ fi_input fi < L.
Proof.
  intros I Hi He. assert (HL := b_valid _ _ _ _ _ _ _ _ _ I i ltac:(lia)).
  destruct (entry_input c iskey L Hps t35s i fi HL He) as (_ & H & _).
  assert (sb e <= sb i). { apply sb_mono; [exact t35s|lia|]. intros m Hm. apply (b_valid _ _ _ _ _ _ _ _ _ I). lia. }
  assert (sb 0 <= sb e). { apply sb_mono; [exact t35s|lia|]. intros m Hm. apply (b_valid _ _ _ _ _ _ _ _ _ I). lia. }
  change (sb 0) with 0 in *. destruct (pos_facts c iskey L i) as (_ & Hgs & HP). destruct (HP HL) as (Hg & _).
  destruct (nkf_spec c iskey L (snd (pos i)) ltac:(lia) Hg) as [H5 _]. lia.
Qed.
Lemma has_input s fl lo e o ds i fi : InvB s fl lo e o ds -> (e <= i < o)%nat -> entry i = Some fi ->
  has_frame s (fi_input fi) = true.
Proof.
  intros I Hi He. destruct (input_ge _ _ _ _ _ _ _ _ I Hi He) as (H1 & H2 & _).
  assert (H3 := input_lt _ _ _ _ _ _ i _ I ltac:(lia) He). pose proof (b_fl _ _ _ _ _ _ _ _ _ I) as (Hfl & Hsb & _).
  rewrite (has_frame_eq _ _ _ _ _ _ _ _ _ _ I) by lia.
  destruct (Z.leb_spec fl (fi_input fi)); [|lia]. destruct (Z.ltb_spec (fi_input fi) (s_frame_count s)); [reflexivity|lia].
Qed.

(** compute_block_importances cannot panic. *)
Lemma importances s fl lo e o ds d : InvB s fl lo e o ds -> (e < o)%nat -> dat lo ds e = Some d ->
  block_importances_ok c s = true.
Proof.
  intros I He Hd. pose proof (b_lo _ _ _ _ _ _ _ _ _ I) as (Hlo & _). assert (Hlen := b_len _ _ _ _ _ _ _ _ _ I).
  unfold block_importances_ok. rewrite (rdo_cl _ _ _ _ _ _ I).
  rewrite (b_out _ _ _ _ _ _ _ _ _ I), (b_data _ _ _ _ _ _ _ _ _ I), dat_get by lia. rewrite Hd.
  destruct (fi_sef (fd_fi d)) eqn:Es; [reflexivity|]. cbn [orb].
  set (r := skipn (Z.to_nat (Z.of_nat e - lo)) ds).
  assert (Er : exists r', r = Some d :: r').
  { assert (H := dat_skip lo ds e e ltac:(lia) ltac:(lia)). fold r in H. rewrite Hd in H. unfold dat in H. rewrite Z.sub_diag in H.
    destruct r as [|x r']; cbn in H; [discriminate|]. exists r'. rewrite H. reflexivity. }
  destruct Er as [r' Er]. rewrite Er. cbn [zmap]. rewrite cl_cons_coded by exact Es.
  replace (Z.to_nat (cf_rdo_la c + 1)) with (S (Z.to_nat (cf_rdo_la c))) by (assert (X := proj1 (proj2 Hc)); lia).
  cbn [firstn]. rewrite Z.eqb_refl. cbn [andb]. apply forallb_forall. intros [k d'] Hin.
  assert (Hin2 : In (k, d') (cl (zmap (Z.of_nat e + 1) r'))).
  { rewrite <- (firstn_skipn (Z.to_nat (cf_rdo_la c))). apply in_or_app. left. exact Hin. }
  replace (Z.of_nat e + 1) with (Z.of_nat (S e)) in Hin2 by lia.
  destruct (cl_in _ _ _ Hin2) as (m & Hkm & Hm & Hdm & Hsm). cbn [fst snd] in Hkm, Hdm, Hsm |- *. subst k.
  assert (Hlr : length r = (o - e)%nat) by apply (skip_len _ _ _ _ _ _ I). rewrite Er in Hlr. cbn [length] in Hlr.
  assert (Hdm2 : dat lo ds m = Some d').
  { rewrite <- (dat_skip lo ds e m) by lia. fold r. rewrite Er, dat_cons by lia.
    replace (Z.of_nat e + 1) with (Z.of_nat (S e)) by lia. exact Hdm. }
  assert (D := b_dat _ _ _ _ _ _ _ _ _ I m ltac:(lia) ltac:(lia)). rewrite Hdm2 in D.
  assert (Ee := data_ok_some _ _ _ _ _ _ D). unfold data_ok in D. rewrite Ee in D.
  unfold importance_ok. destruct (is_key (fi_type (fd_fi d'))) eqn:Ek; [reflexivity|]. cbn [orb].
  rewrite (has_input _ _ _ _ _ _ m _ I ltac:(lia) Ee). cbn [andb].
  destruct (entry_shape m _ (b_valid _ _ _ _ _ _ _ _ _ I m ltac:(lia)) Ee Ek) as [Hj Esh].
  destruct (shape_refs c (snd (pos m)) (Z.of_nat m - fst (pos m)) (ts m) Hj) as (Hrf & Hu & _). rewrite <- Esh in Hrf, Hu.
  apply Nat.leb_le in Hu. rewrite Hu. cbn [andb]. apply forallb_forall. intros x Hx.
  assert (Hx2 : In x (fi_refs (fd_fi d'))).
  { clear - Hx. revert Hx. generalize ([] : list Z). induction (fi_refs (fd_fi d')) as [|y l IH]; intros seen Hx; [contradiction|].
    cbn in Hx. destruct (sin y seen); [right; eapply IH; exact Hx|]. destruct Hx as [->|Hx]; [left; reflexivity|right; eapply IH; exact Hx]. }
  rewrite Forall_forall in Hrf. specialize (Hrf x Hx2).
  destruct D as (_ & _ & D). destruct (D ltac:(lia)) as (_ & _ & D2). destruct (D2 eq_refl) as [_ D3]. specialize (D3 Hsm).
  assert (Dm : exists mk, fd_rec d' = dpb mk m) by (destruct D3 as [D3|D3]; rewrite D3; eexists; reflexivity).
  destruct Dm as [mk ->]. unfold slot.
  destruct (dpb_slot mk m (Z.to_nat x) ltac:(lia) ltac:(lia)) as (k & fk & Hk & Hek & Hsk & _ & ->). cbn [rf_out].
  destruct (Z.eqb_spec (Z.of_nat k) (Z.of_nat m)); [lia|]. cbn [negb andb].
  destruct (Z_lt_le_dec (Z.of_nat k) lo) as [Hkl|Hkl].
  - rewrite (b_data _ _ _ _ _ _ _ _ _ I), zmap_get_low by lia. reflexivity.
  - rewrite (b_data _ _ _ _ _ _ _ _ _ I), dat_get by lia.
    assert (Dk := b_dat _ _ _ _ _ _ _ _ _ I k ltac:(lia) ltac:(lia)). unfold data_ok in Dk. rewrite Hek in Dk.
    destruct (dat lo ds k) as [dk|]; [|contradiction]. destruct Dk as (-> & _). rewrite Hsk. reflexivity.
Qed.

(** ** Emitting a frame *)
Lemma data_ok_done e i d fi : entry i = Some fi -> fd_fi d = fi -> (fi_sef fi = false -> fd_la d = src (S i)) -> (i < e)%nat ->
  data_ok e i (Some d).
Proof. intros He H1 H2 Hi. unfold data_ok. rewrite He. split; [exact H1|]. split; [exact H2|]. intros; lia. Qed.

(** The state once output frame [e] has been written. *)
Lemma InvB_emit s fl lo e o ds ds' fi : InvB s fl lo e o ds -> (e < o)%nat -> entry e = Some fi ->
  zlen ds' = zlen ds -> (forall i, lo <= Z.of_nat i -> (i < o)%nat -> data_ok (S e) i (dat lo ds' i)) ->
  let s1 := set_out (s_out s + 1) (set_packet (s_packet_data s ++ frame_obus e fi) (set_data (zmap lo ds') s)) in
  InvB (if fi_show fi then set_processed (s_processed s1 + 1) (set_packet [OTemporalDelimiter] s1) else s1)
       fl lo (S e) o ds'.
Proof.
  intros I He Ee Hl Hdat s1.
  assert (Esb : sb (S e) = sb e + b2z (fi_show fi)).
  { rewrite (sb_S c iskey L t35s) by (apply (b_valid _ _ _ _ _ _ _ _ _ I); lia). rewrite Ee. reflexivity. }
  assert (Epd : pending (S e) = if fi_show fi then [OTemporalDelimiter] else pending e ++ frame_obus e fi).
  { cbn [Sched_plan.pending]. rewrite Ee. reflexivity. }
  assert (Hle : sb e <= sb (S e)) by (rewrite Esb; destruct (fi_show fi); cbn; lia).
  assert (K : forall pd pr, pd = pending (S e) -> pr = sb (S e) ->
     InvB (St (s_frame_count s) (s_limit s) (s_out s + 1) pr (s_frame_q s) (zmap lo ds') (s_keyframes s) (s_forced s) pd
            (s_gop_out s) (s_gop_in s) (s_next_la s) (s_next_la_out s) (s_opaque s) (s_t35 s) (s_flushing s)) fl lo (S e) o ds').
  { intros pd pr -> ->. clear s1 Epd Esb. destruct I. constructor;
    cbn [s_frame_count s_limit s_out s_processed s_frame_q s_data s_keyframes
    s_forced s_packet_data s_gop_out s_gop_in s_next_la s_next_la_out s_opaque s_t35 s_flushing]; try assumption; try reflexivity.
    - destruct b_fl as (F1 & F2 & F3 & F4). repeat split; try assumption; lia.
    - intros n Hn. apply b_opq. lia.
    - lia.
    - lia.
    - lia. }
  destruct (fi_show fi).
  - apply K; [symmetry; exact Epd|]. cbn. rewrite (b_proc _ _ _ _ _ _ _ _ _ I), Esb. reflexivity.
  - apply K; [rewrite (b_pkt _ _ _ _ _ _ _ _ _ I), Epd; reflexivity|]. cbn. rewrite (b_proc _ _ _ _ _ _ _ _ _ I), Esb. cbn. lia.
Qed.

Definition raw_packet (e : nat) (fi : finfo) : packet :=
  Packet (pending e ++ frame_obus e fi) (frame_pic e fi) (fi_input fi) (fi_input fi) (fi_type fi) None.

Lemma sef_step s fl lo e o ds d : InvB s fl lo e o ds -> (e < o)%nat -> dat lo ds e = Some d -> fi_sef (fd_fi d) = true ->
  exists s' ds', encode_sef c s (Z.of_nat e) d = (s', raw_packet e (fd_fi d)) /\ InvB s' fl lo (S e) o ds' /\
    s_flushing s' = s_flushing s /\ s_frame_count s' = s_frame_count s.
Proof.
  intros I He Hd Hs. pose proof (b_lo _ _ _ _ _ _ _ _ _ I) as (Hlo & _). assert (Hlen := b_len _ _ _ _ _ _ _ _ _ I).
  assert (D := b_dat _ _ _ _ _ _ _ _ _ I e ltac:(lia) ltac:(lia)). rewrite Hd in D.
  assert (Ee := data_ok_some _ _ _ _ _ _ D). unfold data_ok in D. rewrite Ee in D.
  destruct D as (_ & _ & D). destruct (D ltac:(lia)) as (Hout & _ & D2). clear D.
  destruct (entry_sef e _ (b_valid _ _ _ _ _ _ _ _ _ I e ltac:(lia)) Ee Hs) as [Hsh Hk].
  destruct (D2 Hk) as [D3 _]. destruct D3 as [Hrec _]; [intros m Hm; lia|].
  unfold encode_sef. rewrite Hk. cbn [app].
  set (d' := FData _ _ _ _ _).
  set (ds' := set_nth (Z.to_nat (Z.of_nat e - lo)) (Some d') ds).
  assert (Eput : put (Z.of_nat e) (Some d') (s_data s) = zmap lo ds').
  { rewrite (b_data _ _ _ _ _ _ _ _ _ I). apply zmap_put_mid. lia. }
  assert (Hl : zlen ds' = zlen ds) by (unfold zlen, ds'; rewrite set_nth_length; reflexivity).
  assert (Hdat : forall i, lo <= Z.of_nat i -> (i < o)%nat -> data_ok (S e) i (dat lo ds' i)).
  { intros i Hi Ho. unfold ds'. rewrite dat_set by lia. destruct (Nat.eqb_spec i e) as [->|Hne].
    - apply (data_ok_done _ _ _ _ Ee); [reflexivity| |lia]. rewrite Hs. discriminate.
    - apply (data_ok_move e); [lia| |apply (b_dat _ _ _ _ _ _ _ _ _ I); assumption].
      intros m Hm. replace m with e by lia. unfold Sched_plan.coded. rewrite Ee, Hs. reflexivity. }
  assert (IE := InvB_emit _ _ _ _ _ _ ds' (fd_fi d) I He Ee Hl Hdat). cbn zeta in IE. rewrite Hsh in IE.
  assert (Eob : map OT35 (fi_t35 (fd_fi d)) ++ [OFrameHeader (header_of c d)] = frame_obus e (fd_fi d)).
  { unfold Sched_plan.frame_obus. rewrite Hk, Hs. cbn [app]. unfold header_of. cbn [fd_fi]. rewrite Hs. reflexivity. }
  rewrite Eob. unfold finalize. eexists _, ds'. split.
  - f_equal. unfold raw_packet. cbn [set_out set_packet set_data s_packet_data].
    rewrite (b_pkt _ _ _ _ _ _ _ _ _ I). subst d'. cbn [fd_fi fd_out]. rewrite Hsh. f_equal.
    unfold Sched_plan.frame_pic. rewrite Hs, Hrec, Hout. reflexivity.
  - split; [|split; reflexivity]. rewrite Eput. exact IE.
Qed.

(** Propagation of the reference buffer to the frames that follow. *)
Definition newrec (rec : slots) (d : fdata) : fdata :=
  FData (fd_fi d) rec (fd_la d) (sign_bias c rec (fi_refs (fd_fi d)) (fi_hint (fd_fi d))) (fd_out d).
Lemma propagate_zmap rec : forall ds (k : nat),
  exists ds', propagate c rec (zmap (Z.of_nat k) ds) = zmap (Z.of_nat k) ds' /\ length ds' = length ds /\
    forall i, (k <= i)%nat ->
      (dat (Z.of_nat k) ds' i = dat (Z.of_nat k) ds i /\
        (forall d, dat (Z.of_nat k) ds i = Some d -> is_key (fi_type (fd_fi d)) = false ->
           exists m dm, (k <= m < i)%nat /\ dat (Z.of_nat k) ds m = Some dm /\
             (is_key (fi_type (fd_fi dm)) = true \/ fi_sef (fd_fi dm) = false))) \/
      (exists d, dat (Z.of_nat k) ds i = Some d /\ is_key (fi_type (fd_fi d)) = false /\
         dat (Z.of_nat k) ds' i = Some (newrec rec d) /\
         (forall m dm, (k <= m < i)%nat -> dat (Z.of_nat k) ds m = Some dm -> fi_sef (fd_fi dm) = true)).
Proof.
  induction ds as [|x r IH]; intros k.
  - exists []. split; [reflexivity|]. split; [reflexivity|]. intros i Hi. left. split; [reflexivity|].
    unfold dat. intros d H. destruct (Z.to_nat _); discriminate.
  - assert (D0 : forall (y : option fdata) l, dat (Z.of_nat k) (y :: l) k = y).
    { intros y l. unfold dat. rewrite Z.sub_diag. reflexivity. }
    assert (DS : forall (y : option fdata) l i, (S k <= i)%nat -> dat (Z.of_nat k) (y :: l) i = dat (Z.of_nat (S k)) l i).
    { intros y l i Hi. rewrite dat_cons by lia. f_equal. lia. }
    assert (EK : zmap (Z.of_nat k) (x :: r) = (Z.of_nat k, x) :: zmap (Z.of_nat (S k)) r).
    { cbn [zmap]. replace (Z.of_nat k + 1) with (Z.of_nat (S k)) by lia. reflexivity. }
    assert (EK' : forall (y : option fdata) l, (Z.of_nat k, y) :: zmap (Z.of_nat (S k)) l = zmap (Z.of_nat k) (y :: l)).
    { intros y l. cbn [zmap]. replace (Z.of_nat k + 1) with (Z.of_nat (S k)) by lia. reflexivity. }
    rewrite EK. cbn [propagate].
    destruct x as [d|].
    + destruct (is_key (fi_type (fd_fi d))) eqn:Ek.
      { exists (Some d :: r). split; [apply EK'|]. split; [reflexivity|]. intros i Hi. left. split; [reflexivity|].
        intros d' Hd' Hk'. destruct (Nat.eq_dec i k) as [->|]; [rewrite D0 in Hd'; congruence|].
        exists k, d. split; [lia|]. split; [apply D0|left; exact Ek]. }
      destruct (fi_sef (fd_fi d)) eqn:Es.
      * destruct (IH (S k)) as (r' & E1 & E2 & E3). rewrite E1. exists (Some (newrec rec d) :: r').
        split; [apply EK'|]. split; [cbn; rewrite E2; reflexivity|]. intros i Hi.
        destruct (Nat.eq_dec i k) as [->|Hne].
        -- right. exists d. rewrite !D0. split; [reflexivity|]. split; [exact Ek|]. split; [reflexivity|]. intros m dm Hm; lia.
        -- rewrite !DS by lia. destruct (E3 i ltac:(lia)) as [[E4 E5]|(d' & E4 & E5 & E6 & E7)].
           ++ left. split; [exact E4|]. intros d' Hd' Hk'. destruct (E5 d' Hd' Hk') as (m & dm & M1 & M2 & M3).
              exists m, dm. split; [lia|]. rewrite DS by lia. split; assumption.
           ++ right. exists d'. split; [exact E4|]. split; [exact E5|]. split; [exact E6|].
              intros m dm Hm Hdm. destruct (Nat.eq_dec m k) as [->|]; [rewrite D0 in Hdm; injection Hdm as <-; exact Es|].
              rewrite DS in Hdm by lia. apply (E7 m); [lia|exact Hdm].
      * exists (Some (newrec rec d) :: r). split; [apply EK'|]. split; [reflexivity|]. intros i Hi.
        destruct (Nat.eq_dec i k) as [->|Hne].
        -- right. exists d. rewrite !D0. split; [reflexivity|]. split; [exact Ek|]. split; [reflexivity|]. intros m dm Hm; lia.
        -- rewrite !DS by lia. left. split; [reflexivity|]. intros d' Hd' Hk'. exists k, d. split; [lia|]. rewrite D0. auto.
    + destruct (IH (S k)) as (r' & E1 & E2 & E3). rewrite E1. exists (None :: r').
      split; [apply EK'|]. split; [cbn; rewrite E2; reflexivity|]. intros i Hi.
      destruct (Nat.eq_dec i k) as [->|Hne].
      * left. rewrite !D0. split; [reflexivity|discriminate].
      * rewrite !DS by lia. destruct (E3 i ltac:(lia)) as [[E4 E5]|(d' & E4 & E5 & E6 & E7)].
        -- left. split; [exact E4|]. intros d' Hd' Hk'. destruct (E5 d' Hd' Hk') as (m & dm & M1 & M2 & M3).
           exists m, dm. split; [lia|]. rewrite DS by lia. split; assumption.
        -- right. exists d'. split; [exact E4|]. split; [exact E5|]. split; [exact E6|].
           intros m dm Hm Hdm. destruct (Nat.eq_dec m k) as [->|]; [rewrite D0 in Hdm; discriminate|].
           rewrite DS in Hdm by lia. apply (E7 m); [lia|exact Hdm].
Qed.

Lemma dat_app2 (lo : Z) (a b : list (option fdata)) (e i : nat) : Z.of_nat e = lo + zlen a -> (e <= i)%nat ->
  dat lo (a ++ b) i = dat (Z.of_nat e) b i.
Proof.
  intros H Hi. unfold dat, zlen in *. rewrite app_nth2 by lia. f_equal. lia.
Qed.
Lemma dat_firstn (lo : Z) (ds : list (option fdata)) (e i : nat) : lo <= Z.of_nat i < Z.of_nat e ->
  dat lo (firstn (Z.to_nat (Z.of_nat e - lo)) ds) i = dat lo ds i.
Proof.
  intros H. unfold dat. rewrite <- (firstn_skipn (Z.to_nat (Z.of_nat e - lo)) ds) at 2.
  destruct (Nat.lt_ge_cases (Z.to_nat (Z.of_nat i - lo)) (length (firstn (Z.to_nat (Z.of_nat e - lo)) ds))) as [Hl|Hl].
  - rewrite app_nth1 by exact Hl. reflexivity.
  - rewrite firstn_length in Hl. rewrite app_nth2 by (rewrite firstn_length; exact Hl).
    rewrite nth_overflow by (rewrite firstn_length; exact Hl).
    rewrite skipn_all2 by lia. destruct (_ - _)%nat; reflexivity.
Qed.

Lemma normal_step s fl lo e o ds d : InvB s fl lo e o ds -> (e < o)%nat -> dat lo ds e = Some d -> fi_sef (fd_fi d) = false ->
  exists s' ds', encode_normal c s (Z.of_nat e) d = (s', if fi_show (fd_fi d) then Some (raw_packet e (fd_fi d)) else None) /\
    InvB s' fl lo (S e) o ds' /\ s_flushing s' = s_flushing s /\ s_frame_count s' = s_frame_count s.
Proof.
  intros I He Hd Hs. pose proof (b_lo _ _ _ _ _ _ _ _ _ I) as (Hlo & _). assert (Hlen := b_len _ _ _ _ _ _ _ _ _ I).
  assert (D := b_dat _ _ _ _ _ _ _ _ _ I e ltac:(lia) ltac:(lia)). rewrite Hd in D.
  assert (Ee := data_ok_some _ _ _ _ _ _ D). unfold data_ok in D. rewrite Ee in D.
  destruct D as (_ & Hla & D). specialize (Hla Hs). destruct (D ltac:(lia)) as (Hout & Dk & D2). clear D.
  set (rpic := Recon (fi_input (fd_fi d)) (Z.of_nat e)).
  set (rec := refresh (fi_refresh (fd_fi d)) (RefFrame (fi_hint (fd_fi d)) (Z.of_nat e) rpic) (fd_rec d)).
  assert (Erec : rec = real (S e)).
  { unfold rec, Sched_plan.real. cbn [Sched_plan.dpb]. rewrite Ee, Hs. destruct (is_key (fi_type (fd_fi d))) eqn:Ek.
    - destruct (entry_key c scene ps e _ Ee Ek) as (_ & -> & _). rewrite (Dk eq_refl).
      rewrite !refresh_all; [reflexivity|apply dpb_length|reflexivity].
    - destruct (D2 eq_refl) as [D3 _]. destruct D3 as [-> _]; [intros m Hm; lia|]. reflexivity. }
  assert (Eob : (if is_key (fi_type (fd_fi d)) then [OSequence] else []) ++ map OT35 (fi_t35 (fd_fi d))
              ++ [OFrame (header_of c d) (Payload (fi_input (fd_fi d)) (Z.of_nat e)
               (if is_key (fi_type (fd_fi d)) then []
                else map (fun r => match slot (fd_rec d) r with Some f => Some (rf_pic f) | None => None end)
                         (fi_refs (fd_fi d)))
               (if is_key (fi_type (fd_fi d)) then [] else fd_bias d) (fd_rec d))] = frame_obus e (fd_fi d)).
  { unfold Sched_plan.frame_obus. rewrite Hs. unfold header_of. cbn [fd_fi fd_rec]. rewrite Hs.
    destruct (is_key (fi_type (fd_fi d))) eqn:Ek; [rewrite (Dk eq_refl); reflexivity|].
    destruct (D2 eq_refl) as [D3 _]. destruct D3 as [-> ->]; [intros m Hm; lia|]. reflexivity. }
  set (d' := FData (fd_fi d) rec (fd_la d) (fd_bias d) (Some rpic)).
  destruct (propagate_zmap rec (skipn (Z.to_nat (Z.of_nat (S e) - lo)) ds) (S e)) as (r' & P1 & P2 & P3).
  set (ds' := firstn (Z.to_nat (Z.of_nat e - lo)) ds ++ Some d' :: r').
  assert (Hfl : zlen (firstn (Z.to_nat (Z.of_nat e - lo)) ds) = Z.of_nat e - lo).
  { unfold zlen in *. rewrite firstn_length. lia. }
  assert (Em : below_key (Z.of_nat e) (s_data s) ++ (Z.of_nat e, Some d') :: propagate c rec (from_key (Z.of_nat e + 1) (s_data s))
          = zmap lo ds').
  { rewrite (b_data _ _ _ _ _ _ _ _ _ I). rewrite zmap_below, zmap_from by lia.
    replace (Z.of_nat e + 1) with (Z.of_nat (S e)) by lia. rewrite P1.
    unfold ds'. rewrite zmap_app, Hfl. cbn [zmap]. replace (lo + (Z.of_nat e - lo)) with (Z.of_nat e) by lia.
    replace (Z.of_nat e + 1) with (Z.of_nat (S e)) by lia. reflexivity. }
  assert (Hl : zlen ds' = zlen ds).
  { unfold ds'. rewrite zlen_app, zlen_cons, Hfl. unfold zlen in *. rewrite P2, skipn_length. lia. }
  assert (Hdat : forall i, lo <= Z.of_nat i -> (i < o)%nat -> data_ok (S e) i (dat lo ds' i)).
  { intros i Hi Ho. assert (Di := b_dat _ _ _ _ _ _ _ _ _ I i Hi Ho).
    destruct (lt_eq_lt_dec i e) as [[Hie|Hie]|Hie].
    - unfold ds'. rewrite dat_app1 by lia. rewrite dat_firstn by lia. clear - Di Hie. unfold data_ok in *.
      destruct (entry i) as [fi|], (dat lo ds i) as [x|]; auto. destruct Di as (H1 & H2 & _). split; [exact H1|]. split; [exact H2|]. lia.
    - subst i. unfold ds'. rewrite (dat_app2 lo _ _ e) by lia. unfold dat at 1. rewrite Z.sub_diag. cbn [Z.to_nat nth].
      apply (data_ok_done _ _ _ _ Ee); [reflexivity|intros _; exact Hla|lia].
    - assert (E1 : dat lo ds' i = dat (Z.of_nat (S e)) r' i).
      { unfold ds'. rewrite (dat_app2 lo _ _ e) by lia. rewrite dat_cons by lia. f_equal. lia. }
      rewrite E1. specialize (P3 i ltac:(lia)).
      assert (DS : forall m, (S e <= m)%nat -> dat (Z.of_nat (S e)) (skipn (Z.to_nat (Z.of_nat (S e) - lo)) ds) m = dat lo ds m).
      { intros m Hm. apply dat_skip; lia. }
      rewrite DS in P3 by lia. destruct P3 as [[P4 P5]|(x & P4 & P5 & P6 & P7)].
      + rewrite P4. unfold data_ok in Di |- *. destruct (entry i) as [fi|] eqn:Ei, (dat lo ds i) as [x|] eqn:Ex; auto.
        destruct Di as (H1 & H2 & H3). split; [exact H1|]. split; [exact H2|]. intros _.
        destruct (H3 ltac:(lia)) as (H4 & H5 & H6). split; [exact H4|]. split; [exact H5|]. intros Hk.
        destruct (H6 Hk) as [_ H7]. split; [|exact H7]. intros Hnc. exfalso.
        rewrite <- H1 in Hk. destruct (P5 x eq_refl Hk) as (m & dm & Hm & Hdm & Hcase). rewrite DS in Hdm by apply Hm.
        assert (Dm := b_dat _ _ _ _ _ _ _ _ _ I m ltac:(clear - Hlo Hm; lia) ltac:(clear - Hm Ho; lia)). rewrite Hdm in Dm.
        assert (Em2 := data_ok_some _ _ _ _ _ _ Dm). assert (Hcm := Hnc m Hm). unfold Sched_plan.coded in Hcm. rewrite Em2 in Hcm.
        destruct Hcase as [Hcase|Hcase].
        * destruct (entry_key c scene ps m _ Em2 Hcase) as (_ & _ & Hsf & _). rewrite Hsf in Hcm. discriminate.
        * rewrite Hcase in Hcm. discriminate.
      + rewrite P6. rewrite P4 in Di. assert (Ei := data_ok_some _ _ _ _ _ _ Di). unfold data_ok in Di |- *. rewrite Ei in *.
        destruct Di as (_ & H2 & H3). cbn [newrec fd_fi fd_la fd_out fd_rec fd_bias].
        split; [reflexivity|]. split; [exact H2|]. intros _. destruct (H3 ltac:(lia)) as (H4 & _ & _).
        split; [exact H4|]. split; [rewrite P5; discriminate|]. intros _.
        assert (Hnc : nocoded (S e) i).
        { intros m Hm. unfold Sched_plan.coded. destruct (entry m) as [fm|] eqn:Em2; [|reflexivity].
          assert (Dm := b_dat _ _ _ _ _ _ _ _ _ I m ltac:(lia) ltac:(lia)). unfold data_ok in Dm. rewrite Em2 in Dm.
          destruct (dat lo ds m) as [dm|] eqn:Edm; [|contradiction]. destruct Dm as (<- & _).
          rewrite (P7 m dm Hm); [reflexivity|]. rewrite DS by lia. exact Edm. }
        assert (Er : rec = real i).
        { rewrite Erec. unfold Sched_plan.real. symmetry. apply dpb_nocoded; [lia|exact Hnc]. }
        rewrite Er. split; [intros _; split; reflexivity|]. intros _. left. reflexivity. }
  assert (IE := InvB_emit _ _ _ _ _ _ ds' (fd_fi d) I He Ee Hl Hdat). cbn zeta in IE.
  unfold encode_normal. rewrite Eob. fold rpic. fold rec. fold d'. cbn [set_packet s_data]. rewrite Em.
  destruct (fi_show (fd_fi d)) eqn:Hsh.
  - unfold finalize. eexists _, ds'. split; [f_equal; f_equal|split; [exact IE|split; reflexivity]].
    unfold raw_packet. cbn [set_out set_packet set_data s_packet_data]. rewrite (b_pkt _ _ _ _ _ _ _ _ _ I).
    unfold d'. cbn [fd_fi fd_out]. rewrite Hsh. f_equal. unfold Sched_plan.frame_pic. rewrite Hs. reflexivity.
  - eexists _, ds'. split; [reflexivity|]. split; [exact IE|split; reflexivity].
Qed.

(** ** Garbage collection and delivery *)
Lemma gc_ok s fl lo e o ds fi : InvB s fl lo (S e) o ds -> lo <= Z.of_nat e -> entry e = Some fi -> fi_show fi = true ->
  exists fl' lo' ds', InvB (garbage_collect s (fi_input fi)) fl' lo' (S e) o ds' /\
    s_opaque (garbage_collect s (fi_input fi)) = s_opaque s /\
    s_flushing (garbage_collect s (fi_input fi)) = s_flushing s /\ s_frame_count (garbage_collect s (fi_input fi)) = s_frame_count s.
Proof.
  intros I Hloe Ee Hsh. pose proof (b_lo _ _ _ _ _ _ _ _ _ I) as (Hlo & Heo). assert (Hlen := b_len _ _ _ _ _ _ _ _ _ I).
  assert (HL := b_valid _ _ _ _ _ _ _ _ _ I e ltac:(lia)).
  destruct (entry_input c iskey L Hps t35s e fi HL Ee) as (_ & _ & Hin). specialize (Hin Hsh).
  assert (Hlt := input_lt _ _ _ _ _ _ e fi I ltac:(lia) Ee). assert (Hseen := b_seen _ _ _ _ _ _ _ _ _ I e fi ltac:(lia) Ee).
  pose proof (b_fl _ _ _ _ _ _ _ _ _ I) as (F1 & F2 & F3 & F4).
  assert (Esb : sb (S e) = fi_input fi + 1).
  { rewrite (sb_S c iskey L t35s) by exact HL. rewrite Ee. cbn [shown]. rewrite Hsh. cbn [b2z]. lia. }
  assert (Hsb0 : sb 0 <= sb e) by (apply sb_mono; [exact t35s|lia|]; intros m Hm; apply (b_valid _ _ _ _ _ _ _ _ _ I); lia).
  change (sb 0) with 0 in Hsb0.
  unfold garbage_collect. destruct (Z.eqb_spec (fi_input fi) 0) as [E0|E0]; [exists fl, lo, ds; auto|].
  set (fl' := Z.max fl (fi_input fi)).
  assert (Efq : del_range (match first_key (s_frame_q s) with Some k => k | None => 0 end) (fi_input fi) (s_frame_q s) =
     zmap fl' (repeat true (Z.to_nat (s_frame_count s - fl')) ++ (if s_flushing s then [false] else []))).
  { rewrite (b_q _ _ _ _ _ _ _ _ _ I). set (tl := if s_flushing s then [false] else []).
    assert (Hne : exists x r, repeat true (Z.to_nat (s_frame_count s - fl)) ++ tl = x :: r).
    { destruct (Z.to_nat (s_frame_count s - fl)) eqn:En; [lia|]. eexists _, _. reflexivity. }
    destruct Hne as (x & r & Hne).
    assert (Ek : first_key (zmap fl (repeat true (Z.to_nat (s_frame_count s - fl)) ++ tl)) = Some fl) by (rewrite Hne; reflexivity).
    rewrite Ek, zmap_del_range. assert (Ht : 0 <= zlen tl) by apply zlen_nonneg.
    rewrite zlen_app, zlen_repeat. f_equal; [lia|].
    rewrite skipn_app, repeat_length. replace (Z.to_nat (fi_input fi - fl) - Z.to_nat (s_frame_count s - fl))%nat with 0%nat by lia.
    cbn [skipn]. f_equal. rewrite skipn_repeat. f_equal. lia. }
  rewrite Efq. cbn [set_frame_q s_out]. rewrite (b_out _ _ _ _ _ _ _ _ _ I).
  destruct (Z.ltb_spec (Z.of_nat (S e)) 2) as [H2|H2].
  - exists fl', lo, ds. split; [|repeat split; reflexivity]. destruct I. constructor;
    cbn [set_frame_q s_frame_count s_limit s_out s_processed s_frame_q s_data s_keyframes
    s_forced s_packet_data s_gop_out s_gop_in s_next_la s_next_la_out s_opaque s_t35 s_flushing]; try assumption; try reflexivity.
    clear - F1 F2 F3 F4 Esb Hlt Hseen E0 Hin Hsb0. subst fl'. lia.
  - cbn [set_frame_q s_data s_gop_out s_gop_in]. rewrite (b_data _ _ _ _ _ _ _ _ _ I).
    assert (Hne : exists x r, ds = x :: r). { destruct ds as [|x r]; [unfold zlen in Hlen; cbn in Hlen; lia|eauto]. }
    assert (Ek : first_key (zmap lo ds) = Some lo) by (destruct Hne as (x & r & ->); reflexivity).
    rewrite Ek, zmap_del_range. set (b := Z.of_nat (S e) - 1). set (lo' := Z.max lo (Z.min b (lo + zlen ds))).
    assert (Elo : lo' = Z.max lo b) by (unfold lo', b; lia). clearbody lo'.
    set (ds' := skipn (Z.to_nat (b - lo)) ds).
    assert (Hlen' : lo' + zlen ds' = Z.of_nat o).
    { unfold ds', zlen in *. rewrite skipn_length. lia. }
    assert (Hdd : forall i, lo' <= Z.of_nat i -> dat lo' ds' i = dat lo ds i).
    { intros i Hi. unfold dat, ds'. rewrite nth_skipn. f_equal. lia. }
    exists fl', lo', ds'. split; [|repeat split; reflexivity]. destruct I. constructor;
    cbn [set_frame_q set_gops set_data s_frame_count s_limit s_out s_processed s_frame_q s_data s_keyframes
    s_forced s_packet_data s_gop_out s_gop_in s_next_la s_next_la_out s_opaque s_t35 s_flushing]; try assumption; try reflexivity.
    + clear - F1 F2 F3 F4 Esb Hlt Hseen E0 Hin Hsb0. subst fl'. lia.
    + intros i Hi Hio. rewrite !get_del_range, b_out. fold b.
      destruct (Z.leb_spec lo (Z.of_nat i)); [|lia]. destruct (Z.ltb_spec (Z.of_nat i) b); [lia|]. cbn [andb]. apply b_gop; lia.
    + intros i Hi Hio. rewrite Hdd by exact Hi. apply b_dat; lia.
    + lia.
Qed.

Lemma deliver_ok s fl lo e o ds fi : InvB s fl lo (S e) o ds -> lo <= Z.of_nat e -> (forall n, sb e <= n -> get n (s_opaque s) = if n <? s_frame_count s then opq n else None) ->
  entry e = Some fi -> fi_show fi = true ->
  exists s' fl' lo' ds', deliver s (raw_packet e fi) = (s', RPacket (packet_of e fi)) /\ InvB s' fl' lo' (S e) o ds' /\
    s_flushing s' = s_flushing s /\ s_frame_count s' = s_frame_count s.
Proof.
  intros I Hloe Ho Ee Hsh. destruct (gc_ok _ _ _ _ _ _ _ I Hloe Ee Hsh) as (fl' & lo' & ds' & I' & E1 & E2 & E3).
  pose proof (b_lo _ _ _ _ _ _ _ _ _ I) as (_ & Heo).
  assert (HL := b_valid _ _ _ _ _ _ _ _ _ I e ltac:(lia)).
  destruct (entry_input c iskey L Hps t35s e fi HL Ee) as (_ & Hge & Hin). specialize (Hin Hsh).
  assert (Hlt := input_lt _ _ _ _ _ _ e fi I ltac:(lia) Ee).
  unfold deliver. cbn [raw_packet p_input p_data p_rec p_source p_type].
  eexists _, fl', lo', ds'. split; [f_equal; f_equal|].
  - unfold Sched_plan.packet_of. f_equal. rewrite E1, Ho by lia. destruct (Z.ltb_spec (fi_input fi) (s_frame_count s)); [reflexivity|lia].
  - split; [|split; [exact E2|exact E3]].
    assert (Esb : sb (S e) = fi_input fi + 1).
    { rewrite (sb_S c iskey L t35s) by exact HL. rewrite Ee. cbn [shown]. rewrite Hsh. cbn [b2z]. lia. }
    destruct I'. constructor;
    cbn [set_opaque s_frame_count s_limit s_out s_processed s_frame_q s_data s_keyframes
    s_forced s_packet_data s_gop_out s_gop_in s_next_la s_next_la_out s_opaque s_t35 s_flushing]; try assumption; try reflexivity.
    intros n Hn. rewrite get_del. destruct (Z.eqb_spec n (fi_input fi)); [lia|]. apply b_opq. exact Hn.
Qed.

(** ** receive_packet *)
Definition pk (r : result) : list packet := match r with RPacket p => [p] | _ => [] end.
Definition recv_case (s : st) (e : nat) (s' : st) (e' : nat) (ready : bool) (r : result) : Prop :=
  match r with
  | RPacket _ | RStatus Encoded => ready = true /\ (e < e')%nat
  | RStatus LimitReached => s_flushing s = true /\ sb e = L /\ s' = s
  | RStatus NeedMoreData => s_flushing s = false /\ s' = s /\ needs_more_fi c s = true
  | RStatus NotReady => ready = false
  | RStatus EnoughData | RSent => False
  end.

Lemma flushed_total s fl lo e o ds : InvB s fl lo e o ds -> s_flushing s = true -> L <= snd (pos o) ->
  sb o = L /\ 0 <= sb e <= L.
Proof.
  intros I Hf HL. assert (Hsb : sb o = L).
  { destruct o as [|o]; [change (snd (pos 0)) with 0 in HL; change (sb 0) with 0; assert (H := zlen_nonneg _ ps); lia|].
    apply sb_end; [apply (b_valid _ _ _ _ _ _ _ _ _ I); lia|exact HL]. }
  pose proof (b_lo _ _ _ _ _ _ _ _ _ I) as (_ & Heo).
  assert (sb e <= sb o). { apply sb_mono; [exact t35s|lia|]. intros m Hm. apply (b_valid _ _ _ _ _ _ _ _ _ I). lia. }
  assert (sb 0 <= sb e). { apply sb_mono; [exact t35s|lia|]. intros m Hm. apply (b_valid _ _ _ _ _ _ _ _ _ I). lia. }
  change (sb 0) with 0 in *. lia.
Qed.

Lemma receive_ok s e ready : Inv s e ->
  exists s' r e', receive_packet c s ready = Some (s', r) /\ Inv s' e' /\ s_flushing s' = s_flushing s /\
    s_frame_count s' = s_frame_count s /\ (e <= e')%nat /\ packets e' = packets e ++ pk r /\
    recv_case s e s' e' ready r.
Proof.
  intros HI. assert (HI0 := HI). destruct HI as (fl & lo & o & ds & I & HBo & Hend & Hpre).
  assert (Same : forall r, pk r = [] -> recv_case s e s e ready r ->
    exists s' r' e', Some (s, r) = Some (s', r') /\ Inv s' e' /\ s_flushing s' = s_flushing s /\
    s_frame_count s' = s_frame_count s /\ (e <= e')%nat /\ packets e' = packets e ++ pk r' /\
    recv_case s e s' e' ready r').
  { intros r H1 H2. exists s, r, e. split; [reflexivity|]. split; [exact HI0|]. rewrite H1, app_nil_r. auto. }
  unfold receive_packet. rewrite (b_lim _ _ _ _ _ _ _ _ _ I), (b_proc _ _ _ _ _ _ _ _ _ I).
  assert (Hlim : match (if s_flushing s then Some L else None) with Some l => sb e =? l | None => false end =
                 s_flushing s && (sb e =? L)) by (destruct (s_flushing s); reflexivity).
  rewrite Hlim. clear Hlim.
  destruct (s_flushing s && (sb e =? L)) eqn:El.
  { apply andb_true_iff in El. destruct El as [El1 El2]. apply Z.eqb_eq in El2.
    apply Same; [reflexivity|]. cbn. auto. }
  destruct (needs_more_fi c s) eqn:En.
  { assert (Hf : s_flushing s = false).
    { destruct (s_flushing s) eqn:Hf; [|reflexivity]. unfold needs_more_fi, needs_more_frames in En.
      rewrite (b_lim _ _ _ _ _ _ _ _ _ I), (b_la _ _ _ _ _ _ _ _ _ I), Hf in En. apply andb_true_iff in En.
      destruct En as [_ En]. apply Z.ltb_lt in En. lia. }
    apply Same; [reflexivity|]. cbn. auto. }
  (* the coded frame that guarantees the next one *)
  assert (Hne : exists m, (e <= m < o)%nat /\ entry m <> None).
  { destruct (s_flushing s) eqn:Hf.
    - destruct (flushed_total _ _ _ _ _ _ I Hf (Hend eq_refl)) as [Hso Hse].
      cbn [andb] in El. apply Z.eqb_neq in El. pose proof (b_lo _ _ _ _ _ _ _ _ _ I) as (_ & Heo).
      assert (Hdec : forall n, (n <= o - e)%nat -> (exists m, (e <= m < e + n)%nat /\ entry m <> None) \/ allnone e (e + n)).
      { induction n as [|n IHn]; intros Hn; [right; intros m Hm; lia|]. destruct (IHn ltac:(lia)) as [(m & Hm & Hm2)|Hno].
        - left. exists m. split; [lia|exact Hm2].
        - destruct (entry (e + n)) as [fi|] eqn:Efi.
          + left. exists (e + n)%nat. split; [lia|]. rewrite Efi. discriminate.
          + right. intros m Hm. destruct (Nat.eq_dec m (e + n)) as [->|]; [exact Efi|]. apply Hno. lia. }
      destruct (Hdec (o - e)%nat ltac:(lia)) as [(m & Hm & Hm2)|Hno].
      + exists m. split; [lia|exact Hm2].
      + exfalso. replace (e + (o - e))%nat with o in Hno by lia.
        destruct (skip_sb e o Heo Hno) as (Hs & _); [intros m Hm; apply (b_valid _ _ _ _ _ _ _ _ _ I); lia|]. lia.
    - destruct (two_coded _ _ _ _ _ _ I En Hf) as (m1 & m2 & H1 & H2 & H3 & _). exists m1. split; [lia|].
      unfold Sched_plan.coded in H3. destruct (entry m1); discriminate. }
  destruct (next_entry _ _ _ _ _ _ I Hne) as (e1 & d & He1 & Hno & Hd & Hfind). rewrite Hfind.
  assert (Hle : (e <= S e1)%nat /\ (e < S e1)%nat) by (clear - He1; lia). assert (He1o : (e1 < o)%nat) by (clear - He1; lia).
  assert (He11 : (e1 <= e1 < o)%nat) by (clear - He1; lia).
  assert (I1 := InvB_skip _ _ _ _ e1 _ _ I ltac:(lia) Hno).
  assert (Hpk1 : packets e1 = packets e).
  { apply skip_sb; [lia|exact Hno|]. intros m Hm. apply (b_valid _ _ _ _ _ _ _ _ _ I). lia. }
  set (s1 := set_out (Z.of_nat e1) s) in *.
  assert (Hf1 : s_flushing s1 = s_flushing s) by reflexivity. assert (Hc1 : s_frame_count s1 = s_frame_count s) by reflexivity.
  assert (HB1 : s_flushing s = false -> HB e1 o /\ HB (S e1) o).
  { intros Hf. destruct (two_coded _ _ _ _ _ _ I En Hf) as (m1 & m2 & H1 & H2 & H3 & H4).
    assert (Hm1 : (e1 <= m1)%nat).
    { destruct (Nat.lt_ge_cases m1 e1) as [H|H]; [|exact H]. rewrite (allnone_nocoded _ _ Hno m1) in H3 by lia. discriminate. }
    split; right; exists m2; (split; [lia|exact H4]). }
  assert (Hlo1 := proj1 (b_lo _ _ _ _ _ _ _ _ _ I1)).
  assert (D := b_dat _ _ _ _ _ _ _ _ _ I1 e1 ltac:(lia) ltac:(lia)). rewrite Hd in D.
  assert (Ee := data_ok_some _ _ _ _ _ _ D). clear D.
  (* it is below the limit *)
  assert (Hnm : needs_more_frames s1 (fi_input (fd_fi d)) = true).
  { unfold needs_more_frames. rewrite (b_lim _ _ _ _ _ _ _ _ _ I1). destruct (s_flushing s1); [|reflexivity].
    destruct (input_ge _ _ _ _ _ _ e1 _ I1 He11 Ee) as (_ & _ & H). apply Z.ltb_lt. exact H. }
  rewrite Hnm. cbn [negb].
  rewrite (importances _ _ _ _ _ _ _ I1 ltac:(lia) Hd), andb_false_r.
  (* not ready *)
  assert (NR : ready = false -> exists s' r e', Some (s1, RStatus NotReady) = Some (s', r) /\ Inv s' e' /\ s_flushing s' = s_flushing s /\
    s_frame_count s' = s_frame_count s /\ (e <= e')%nat /\ packets e' = packets e ++ pk r /\ recv_case s e s' e' ready r).
  { intros Hr. exists s1, (RStatus NotReady), e1. split; [reflexivity|]. split.
    - exists fl, lo, o, ds. split; [exact I1|]. split; [intros Hf; apply HB1; exact Hf|]. split; [exact Hend|exact Hpre].
    - split; [exact Hf1|]. split; [exact Hc1|]. split; [lia|]. cbn [pk]. rewrite app_nil_r. split; [exact Hpk1|exact Hr]. }
  (* a shown frame is delivered *)
  assert (DL : forall s2 ds2, ready = true -> InvB s2 fl lo (S e1) o ds2 -> s_flushing s2 = s_flushing s -> s_frame_count s2 = s_frame_count s ->
      s_opaque s2 = s_opaque s -> fi_show (fd_fi d) = true ->
      exists s' r e', Some (deliver s2 (raw_packet e1 (fd_fi d))) = Some (s', r) /\ Inv s' e' /\ s_flushing s' = s_flushing s /\
      s_frame_count s' = s_frame_count s /\ (e <= e')%nat /\ packets e' = packets e ++ pk r /\ recv_case s e s' e' ready r).
  { intros s2 ds2 Hr I2 Hf2 Hc2 Ho2 Hsh.
    destruct (deliver_ok s2 fl lo e1 o ds2 (fd_fi d)) as (s3 & fl3 & lo3 & ds3 & E3 & I3 & Hf3 & Hc3); try assumption; [lia| |].
    { intros n Hn. rewrite Ho2, Hc2. apply (b_opq _ _ _ _ _ _ _ _ _ I1). exact Hn. }
    rewrite E3. exists s3, (RPacket (packet_of e1 (fd_fi d))), (S e1). split; [reflexivity|].
    rewrite Hf2 in Hf3. rewrite Hc2 in Hc3. split.
    - exists fl3, lo3, o, ds3. split; [exact I3|]. rewrite Hf3, Hc3. split; [intros Hf; apply HB1; exact Hf|]. split; [exact Hend|exact Hpre].
    - split; [exact Hf3|]. split; [exact Hc3|]. split; [exact (proj1 Hle)|]. split; [|cbn; split; [exact Hr|exact (proj2 Hle)]].
      cbn [Sched_plan.packets pk]. rewrite Ee, Hsh, Hpk1. reflexivity. }
  destruct (fi_sef (fd_fi d)) eqn:Es.
  - destruct ready eqn:Hr; cbn [negb]; [|apply NR; reflexivity].
    destruct (sef_step _ _ _ _ _ _ d I1 He1o Hd Es) as (s2 & ds2 & E2 & I2 & Hf2 & Hc2).
    rewrite E2. assert (Ho2 : s_opaque s2 = s_opaque s).
    { unfold encode_sef, finalize in E2. injection E2 as <- _. reflexivity. }
    apply (DL s2 ds2); try assumption; try reflexivity. apply (entry_sef e1); [exact (b_valid _ _ _ _ _ _ _ _ _ I1 e1 He1o)|exact Ee|exact Es].
  - rewrite (has_input _ _ _ _ _ _ e1 _ I1 He11 Ee).
    destruct ready eqn:Hr; cbn [negb]; [|apply NR; reflexivity].
    assert (Hg : guess_ok s1 = true).
    { unfold guess_ok. rewrite (b_out _ _ _ _ _ _ _ _ _ I1). destruct (b_gop _ _ _ _ _ _ _ _ _ I1 e1 (proj2 Hlo1) He1o) as [-> ->].
      apply orb_true_r. }
    rewrite Hg. cbn [negb].
    destruct (normal_step _ _ _ _ _ _ d I1 He1o Hd Es) as (s2 & ds2 & E2 & I2 & Hf2 & Hc2).
    assert (Ho2 : s_opaque s2 = s_opaque s).
    { unfold encode_normal, finalize in E2. destruct (fi_show (fd_fi d)); injection E2 as <-; reflexivity. }
    rewrite E2. destruct (fi_show (fd_fi d)) eqn:Hsh.
    + apply (DL s2 ds2); try assumption; reflexivity.
    + exists s2, (RStatus Encoded), (S e1). split; [reflexivity|]. split.
      * exists fl, lo, o, ds2. split; [exact I2|]. rewrite Hf2, Hc2. split; [intros Hf; apply HB1; exact Hf|]. split; [exact Hend|exact Hpre].
      * split; [rewrite Hf2; exact Hf1|]. split; [rewrite Hc2; exact Hc1|]. split; [exact (proj1 Hle)|]. split; [|cbn; split; [reflexivity|exact (proj2 Hle)]].
        cbn [Sched_plan.packets pk]. rewrite Ee, Hsh, Hpk1. reflexivity.
Qed.
End Recv.
