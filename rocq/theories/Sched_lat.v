(** How many frames can be inside the encoder when it asks for more, and
    low-latency metadata. *)
From Verif Require Import Base SMap Sched_model Sched_plan Sched_inv Sched_shape Sched_step Sched_recv Sched_spec Sched_run Sched_slots Sched_dec.

Section Lat.
Variable c : config.
Variable scene : Z -> bool.
Variable ps : list (option params).
Hypothesis Hc : cfg_ok c.
Hypothesis Hps : zlen ps < 2 ^ 31.

Notation iskey := (keyf scene ps).
Notation L := (zlen ps).
Notation t35s := (t35f ps).
Notation opq := (opqf ps).
Notation gstart := (gstart c iskey).
Notation ends := (ends c iskey L).
Notation nkf := (nkf c iskey L).
Notation pos := (pos c iskey L).
Notation ppos := (ppos c iskey L).
Notation pre := (pre c iskey L).
Notation taken := (taken c iskey L).
Notation ts := (ts c iskey L t35s).
Notation entry := (entry c iskey L t35s).
Notation coded := (coded c iskey L t35s).
Notation sb := (sb c iskey L).
Notation real := (real c iskey L t35s).
Notation src := (src c iskey L t35s).
Notation dpb := (dpb c iskey L t35s).
Notation pending := (pending c iskey L t35s).
Notation packets := (packets c iskey L t35s opq).
Notation packet_of := (packet_of c iskey L t35s opq).
Notation frame_obus := (frame_obus c iskey L t35s).
Notation frame_pic := (frame_pic c iskey L t35s).
Notation IL := (ic_in_len c).
Notation OL := (ic_out_len c).
Notation InvB := (InvB c scene ps).
Notation HB := (HB c scene ps).
Notation data_ok := (data_ok c scene ps).
Notation nocoded := (nocoded c scene ps).
Notation Inv := (Inv c scene ps).

Let Hkf : 1 <= cf_max_kf c := proj1 Hc.

(** ** Coded and shown frames *)
Fixpoint cd (i : nat) : Z := match i with O => 0 | S k => cd k + b2z (coded k) end.
(** Hidden frames coded but not yet shown before position [rx] of group [g]. *)
Definition hid (len g rx : Z) : Z :=
  b2z ((1 <=? rx) && (4 * g + 4 <? len)) + b2z ((2 <=? rx) && (rx <=? 3) && (4 * g + 2 <? len)).
Lemma hid_range len g rx : 0 <= hid len g rx <= 2.
Proof. unfold hid. destruct (_ && _), (_ && _); cbn; lia. Qed.
Lemma hid_step len g rx : 0 <= rx <= 5 ->
  hid len (fst (nextp g rx)) (snd (nextp g rx)) =
  hid len g rx + b2z ((fh g rx <? len) && negb (fsef rx)) - b2z ((fh g rx <? len) && fshow rx).
Proof.
  intros H. assert (R : rx = 0 \/ rx = 1 \/ rx = 2 \/ rx = 3 \/ rx = 4 \/ rx = 5) by lia.
  destruct R as [->|[->|[->|[->|[->| ->]]]]]; unfold hid, nextp, fh, fsef, fshow; cbn [fst snd Z.eqb Pos.eqb].
  - change (1 <=? 0 + 1) with true. change (2 <=? 0 + 1) with false. change (1 <=? 0) with false. change (2 <=? 0) with false. cbn [andb negb].
    destruct (_ <? _); reflexivity.
  - change (1 <=? 1 + 1) with true. change (2 <=? 1 + 1) with true. change (1 + 1 <=? 3) with true. change (1 <=? 1) with true. change (2 <=? 1) with false. cbn [andb negb].
    destruct (4 * g + 4 <? len), (4 * g + 2 <? len); reflexivity.
  - change (1 <=? 2 + 1) with true. change (2 <=? 2 + 1) with true. change (2 + 1 <=? 3) with true. change (1 <=? 2) with true. change (2 <=? 2) with true. change (2 <=? 3) with true. cbn [andb negb].
    destruct (4 * g + 4 <? len), (4 * g + 2 <? len), (4 * g + 1 <? len); reflexivity.
  - change (1 <=? 3 + 1) with true. change (2 <=? 3 + 1) with true. change (3 + 1 <=? 3) with false. change (1 <=? 3) with true. change (2 <=? 3) with true. change (3 <=? 3) with true. cbn [andb negb].
    destruct (4 * g + 4 <? len), (4 * g + 2 <? len); reflexivity.
  - change (1 <=? 4 + 1) with true. change (2 <=? 4 + 1) with true. change (4 + 1 <=? 3) with false. change (1 <=? 4) with true. change (2 <=? 4) with true. change (4 <=? 3) with false. cbn [andb negb].
    destruct (4 * g + 4 <? len), (4 * g + 3 <? len); reflexivity.
  - change (1 <=? 0) with false. change (2 <=? 0) with false. change (1 <=? 5) with true. change (2 <=? 5) with true. change (5 <=? 3) with false. cbn [andb negb].
    destruct (4 * g + 4 <? len); reflexivity.
Qed.

Definition cdx (gs j : Z) : Z :=
  if (j =? 0) || negb (ic_reorder c) then 0 else hid (nkf gs - gs) (gidx c j) (ridx c j).
Lemma cd_sb i : valid c scene ps i -> cd i = sb i + cdx (snd (pos i)) (Z.of_nat i - fst (pos i)).
Proof.
  induction i as [|i IH]; intros Hv; [reflexivity|].
  specialize (IH (valid_S c scene ps _ Hv)). assert (HLi := Hv i ltac:(lia)).
  cbn [cd]. rewrite IH, (sb_S c iskey L t35s) by exact HLi. clear IH.
  destruct (pos_facts c iskey L i) as (Hgo & Hgs & HP). destruct (HP HLi) as (Hg & _ & Hrm). clear HP.
  set (gs := snd (pos i)) in *. set (go := fst (pos i)) in *.
  assert (Ej1 : Z.of_nat (S i) - go = Z.of_nat i - go + 1) by lia. set (j := Z.of_nat i - go) in *.
  assert (Hj0 : 0 <= j) by (subst j; lia).
  destruct (nkf_spec c iskey L gs ltac:(lia) Hg) as [Hnk Hends].
  (* what follows: zero after a switch, next position otherwise *)
  assert (Hnext : cdx (snd (pos (S i))) (Z.of_nat (S i) - fst (pos (S i))) = cdx gs (j + 1)).
  { destruct (pos_S_cases c iskey L i) as [(Ha & Ep)|(Ha & Ep)]; rewrite Ep; cbn [fst snd].
    - rewrite Z.sub_diag. change (cdx _ 0) with 0. fold gs go in Ha. rewrite Ej1 in Ha. unfold adv in Ha. apply andb_true_iff in Ha. destruct Ha as [Ha _].
      apply Z.eqb_eq in Ha. unfold cdx. rewrite Ha. destruct (_ || _); [reflexivity|]. unfold hid. reflexivity.
    - fold gs go. rewrite Ej1. reflexivity. }
  rewrite Hnext. clear Hnext.
  unfold cdx. destruct (Z.eqb_spec (j + 1) 0); [lia|]. cbn [orb].
  destruct (Z.eqb_spec j 0) as [Ej|Ej].
  - assert (Ee : entry i = Some (fd_fi (new_key_frame gs (ts i)))).
    { unfold Sched_plan.entry, entry_at. fold gs go j. rewrite Ej. reflexivity. }
    unfold Sched_plan.coded. rewrite Ee. change (b2z (shown (Some (fd_fi (new_key_frame gs (ts i)))))) with 1.
    change (b2z (negb (fi_sef (fd_fi (new_key_frame gs (ts i)))))) with 1. cbn [orb].
    rewrite Ej. change (0 + 1) with 1. destruct (step_first c) as [E1 E2]. rewrite E1, E2. destruct (negb _); [lia|]. change (hid (nkf gs - gs) 0 0) with 0. lia.
  - cbn [orb]. assert (Hj1 : 1 <= j) by lia. specialize (Hrm Hj1).
    assert (Hlb := hintz_lb c iskey j Hj1). assert (HIg := ILg c iskey j Hj1).
    assert (Een : entry i = if nkf gs <=? gs + hintz c j then None else Some (inter_info c gs j (ts i))).
    { unfold Sched_plan.entry, entry_at. fold gs go j. destruct (Z.eqb_spec j 0); [lia|]. unfold inputz.
      destruct (Z.eqb_spec j 0); [lia|]. rewrite Hends by lia. reflexivity. }
    assert (Esh : forall fi, entry i = Some fi -> fi = shape c gs j (ts i)).
    { intros fi Ee. destruct (is_key (fi_type fi)) eqn:Ek.
      - destruct (entry_key c scene ps i fi Ee Ek) as (Hi & _). fold go in Hi. lia.
      - destruct (entry_shape c scene ps Hc Hps i fi HLi Ee Ek) as [_ E]. fold gs go in E. fold j in E. auto. }
    assert (Hxr := ridx_range c iskey j). assert (Hg0 := gidx_nonneg c iskey j Hj1).
    destruct (ic_reorder c) eqn:Er; cbn [negb].
    + destruct (cases_mode c) as [(_ & _ & EI & EO)|(E0 & _)]; [|congruence]. rewrite EO in Hxr.
      rewrite (hintz_fh c scene ps j Er Hj1) in Een.
      assert (Enext : (gidx c (j + 1), ridx c (j + 1)) = nextp (gidx c j) (ridx c j)).
      { unfold nextp. destruct (Z.eqb_spec (ridx c j) 5) as [E5|E5].
        - destruct (step_next c iskey j Hj1 ltac:(rewrite EO; lia)) as [-> ->]. reflexivity.
        - destruct (step_same c iskey j Hj1 ltac:(rewrite EO; lia)) as [-> ->]. reflexivity. }
      assert (St := hid_step (nkf gs - gs) (gidx c j) (ridx c j) ltac:(lia)). rewrite <- Enext in St. cbn [fst snd] in St. rewrite St. clear St Enext.
      destruct (Z.leb_spec (nkf gs) (gs + fh (gidx c j) (ridx c j))) as [Hle|Hlt].
      * destruct (Z.ltb_spec (fh (gidx c j) (ridx c j)) (nkf gs - gs)); [lia|]. cbn [andb b2z].
        unfold Sched_plan.coded. rewrite Een. cbn [shown b2z]. lia.
      * destruct (Z.ltb_spec (fh (gidx c j) (ridx c j)) (nkf gs - gs)); [|lia]. cbn [andb].
        assert (E1 := Esh _ Een). rewrite E1 in Een.
        destruct (shape_reorder c scene gs j (ts i) Er ltac:(lia)) as (_ & _ & _ & F4 & F5 & _).
        unfold Sched_plan.coded. rewrite Een. cbn [shown]. rewrite F4, F5. lia.
    + destruct (cases_mode c) as [(E0 & _)|(_ & _ & EI & EO)]; [congruence|].
      assert (Hub := hintz_ub c iskey j Hj1). rewrite EI in *.
      destruct (Z.leb_spec (nkf gs) (gs + hintz c j)) as [Hle|Hlt]; [lia|].
      assert (E1 := Esh _ Een). rewrite E1 in Een. unfold Sched_plan.coded. rewrite Een. unfold shape. rewrite Er. cbn [shown fi_show fi_sef negb b2z]. lia.
Qed.
Lemma cdx_range gs j : 0 <= cdx gs j <= (if ic_reorder c then 2 else 0).
Proof.
  unfold cdx. assert (H := hid_range (nkf gs - gs) (gidx c j) (ridx c j)). destruct (ic_reorder c); destruct (j =? 0); cbn [orb negb]; lia.
Qed.
Lemma cd_mono a b : (a <= b)%nat -> cd a <= cd b.
Proof. induction 1 as [|b H IH]; [lia|]. cbn [cd]. assert (0 <= b2z (coded b)) by (destruct (coded b); cbn; lia). lia. Qed.

(** ** The first input examined next *)
Lemma pre_sb o : valid c scene ps o -> pre o <= sb o + 2 * IL - 2.
Proof.
  intros Hv. destruct o as [|k]; [change (pre 0) with 0; change (sb 0) with 0; destruct (cases_mode c) as [(_ & _ & -> & _)|(_ & _ & -> & _)]; lia|].
  assert (HL := Hv k ltac:(lia)). destruct (pos_facts c iskey L k) as (Hgo & Hgs & HP). destruct (HP HL) as (Hg & _ & Hrm). clear HP.
  unfold Sched_plan.pre, Sched_plan.ppos. set (gs := snd (pos k)) in *. set (go := fst (pos k)) in *.
  set (j := Z.of_nat (S k) - go). assert (Hj : 1 <= j) by (subst j; lia).
  destruct (nkf_spec c iskey L gs ltac:(lia) Hg) as [Hnk Hends].
  unfold inputz. destruct (Z.eqb_spec j 0); [lia|]. assert (Hub := hintz_ub c iskey j Hj). assert (HIg := ILg c iskey j Hj).
  assert (HIL : 1 <= IL) by (destruct (cases_mode c) as [(_ & _ & -> & _)|(_ & _ & -> & _)]; lia).
  assert (Hxr := ridx_range c iskey j).
  assert (Hprev : 2 <= j -> ridx c j = 0 -> gidx c j = gidx c (j - 1) + 1).
  { intros H2 H0. destruct (Z_lt_le_dec (ridx c (j - 1) + 1) OL) as [H|H].
    - destruct (step_same c iskey (j - 1) ltac:(lia) H) as [E _]. replace (j - 1 + 1) with j in E by lia.
      assert (X := ridx_range c iskey (j - 1)). lia.
    - assert (X := ridx_range c iskey (j - 1)). destruct (step_next c iskey (j - 1) ltac:(lia) ltac:(lia)) as [_ E]. replace (j - 1 + 1) with j in E by lia. exact E. }
  assert (Hsame : 2 <= j -> ridx c j <> 0 -> gidx c j = gidx c (j - 1)).
  { intros H2 H0. destruct (Z_lt_le_dec (ridx c (j - 1) + 1) OL) as [H|H].
    - destruct (step_same c iskey (j - 1) ltac:(lia) H) as [_ E]. replace (j - 1 + 1) with j in E by lia. exact E.
    - assert (X := ridx_range c iskey (j - 1)). destruct (step_next c iskey (j - 1) ltac:(lia) ltac:(lia)) as [E _]. replace (j - 1 + 1) with j in E by lia. lia. }
  assert (Ejk : Z.of_nat k - go = j - 1) by (subst j; lia). rewrite Ejk in Hrm.
  destruct (pos_S_cases c iskey L k) as [(Ha & Ep)|(Ha & Ep)]; unfold Sched_plan.sb; rewrite Ep; cbn [fst snd]; fold gs go in Ha |- *; fold j in Ha |- *.
  - rewrite Z.sub_diag. unfold sbf. cbn [Z.eqb]. unfold adv in Ha. apply andb_true_iff in Ha. destruct Ha as [Ha _]. apply Z.eqb_eq in Ha.
    destruct (Z.eq_dec j 1) as [E1|E1].
    + destruct (step_first c) as [_ E2]. rewrite E1 in Hub |- *. rewrite E2 in Hub. lia.
    + specialize (Hrm ltac:(lia)). rewrite (Hprev ltac:(lia) Ha) in Hub. set (g := gidx c (j - 1)) in *. clearbody g. nia.
  - unfold sbf. destruct (Z.eqb_spec j 0); [lia|].
    assert (Hn : gs + IL * gidx c j + 1 < nkf gs).
    { unfold adv in Ha. apply andb_false_iff in Ha. destruct Ha as [Ha|Ha].
      - apply Z.eqb_neq in Ha. destruct (Z.eq_dec j 1) as [E1|E1]; [destruct (step_first c) as [E2 _]; rewrite E1 in Ha; congruence|].
        rewrite (Hsame ltac:(lia) Ha). apply Hrm. lia.
      - rewrite Hends in Ha by lia. apply Z.leb_gt in Ha. lia. }
    lia.
Qed.

(** ** The number of coded frames waiting *)
Lemma cl_count (P : nat -> bool) : forall ds (k : nat),
  (forall m, (k <= m < k + length ds)%nat -> P m = match dat (Z.of_nat k) ds m with Some d => negb (fi_sef (fd_fi d)) | None => false end) ->
  Z.of_nat (length (cl (zmap (Z.of_nat k) ds))) = fold_right Z.add 0 (map (fun m => b2z (P m)) (seq k (length ds))).
Proof.
  induction ds as [|x r IH]; intros k HP; [reflexivity|]. cbn [zmap length seq map fold_right].
  replace (Z.of_nat k + 1) with (Z.of_nat (S k)) by lia.
  assert (Hr := IH (S k)). rewrite <- Hr.
  2:{ intros m Hm. rewrite HP by (cbn [length]; lia). rewrite dat_cons by lia. replace (Z.of_nat k + 1) with (Z.of_nat (S k)) by lia. reflexivity. }
  assert (Hk := HP k ltac:(cbn [length]; lia)). unfold dat in Hk. rewrite Z.sub_diag in Hk. cbn in Hk. rewrite Hk.
  destruct x as [d|]; [|rewrite cl_cons_skip by exact Coq.Init.Logic.I; cbn [b2z]; lia].
  destruct (fi_sef (fd_fi d)) eqn:Es; cbn [negb b2z].
  - rewrite cl_cons_skip by exact Es. lia.
  - rewrite cl_cons_coded by exact Es. cbn [length]. lia.
Qed.
Lemma cd_sum e n : cd (e + n) = cd e + fold_right Z.add 0 (map (fun m => b2z (coded m)) (seq e n)).
Proof.
  revert e. induction n as [|n IH]; intros e; [rewrite Nat.add_0_r; cbn; lia|].
  replace (e + S n)%nat with (S e + n)%nat by lia. rewrite IH. cbn [cd seq map fold_right]. lia.
Qed.
Lemma waiting s fl lo e o ds : InvB s fl lo e o ds -> needs_more_fi c s = true -> cd o - cd e <= cf_rdo_la c.
Proof.
  intros I Hn. unfold needs_more_fi in Hn. apply andb_true_iff in Hn. destruct Hn as [Hn _]. apply Z.ltb_lt in Hn.
  rewrite (rdo_cl c scene ps s fl lo e o ds I) in Hn. unfold zlen in Hn. rewrite firstn_length in Hn.
  pose proof (b_lo _ _ _ _ _ _ _ _ _ I) as (Hlo & Heo). assert (Hsk := skip_len c scene ps s fl lo e o ds I).
  assert (Hcl := cl_count coded (skipn (Z.to_nat (Z.of_nat e - lo)) ds) e). rewrite Hsk in Hcl.
  replace o with (e + (o - e))%nat at 1 by lia. rewrite cd_sum, <- Hcl; [assert (X := proj1 (proj2 Hc)); lia|].
  intros m Hm. rewrite (dat_skip scene) by lia. assert (D := b_dat _ _ _ _ _ _ _ _ _ I m ltac:(lia) ltac:(lia)).
  unfold Sched_plan.coded. destruct (dat lo ds m) as [d|] eqn:Ed.
  - rewrite (data_ok_some _ _ _ _ _ _ D). reflexivity.
  - rewrite (data_ok_none _ _ _ _ _ D). reflexivity.
Qed.

Lemma latency s e : Inv s e -> s_flushing s = false -> needs_more_fi c s = true ->
  s_frame_count s - sb e <= cf_rdo_la c + (if ic_reorder c then 14 else 3).
Proof.
  intros HI Hf Hn. assert (Hve := Inv_valid c scene ps s e HI). destruct HI as (fl & lo & o & ds & I & _ & _ & Hpre).
  assert (Hla := proj1 (proj2 Hc)). assert (Hsb := sb_nonneg c scene ps e Hve).
  pose proof (b_fc _ _ _ _ _ _ _ _ _ I) as Hfc. destruct (Z.eq_dec (s_frame_count s) 0) as [E0|E0]; [destruct (ic_reorder c); lia|].
  specialize (Hpre Hf ltac:(lia)). assert (Hvo : valid c scene ps o) by (intros i Hi; apply (b_valid _ _ _ _ _ _ _ _ _ I); exact Hi).
  assert (Hps2 := pre_sb o Hvo). assert (Hw := waiting _ _ _ _ _ _ I Hn).
  assert (Ce := cd_sb e Hve). assert (Co := cd_sb o Hvo).
  assert (Re := cdx_range (snd (pos e)) (Z.of_nat e - fst (pos e))). assert (Ro := cdx_range (snd (pos o)) (Z.of_nat o - fst (pos o))).
  unfold kf_lookahead in Hpre. destruct (cases_mode c) as [(Er & _ & EI & _)|(Er & _ & EI & _)]; rewrite EI in *; rewrite Er in *; lia.
Qed.

(** ** Low latency: every output frame is shown and carries its own metadata *)
Lemma ll_plan : ic_reorder c = false -> forall i, valid c scene ps (S i) ->
  pre i = Z.of_nat i /\ sb i = Z.of_nat i /\ pending i = [OTemporalDelimiter] /\
  exists fi, entry i = Some fi /\ fi_show fi = true /\ fi_t35 fi = ts i.
Proof.
  intros Er. destruct (cases_mode c) as [(E0 & _)|(_ & Ed & EI & EO)]; [congruence|].
  assert (Ent : forall i, snd (pos i) < L -> exists fi, entry i = Some fi /\ fi_show fi = true /\ fi_t35 fi = ts i).
  { intros i HL. destruct (pos_facts c iskey L i) as (Hgo & Hgs & HP). destruct (HP HL) as (Hg & _ & Hrm).
    destruct (Z.eq_dec (Z.of_nat i - fst (pos i)) 0) as [E|E].
    - exists (fd_fi (new_key_frame (snd (pos i)) (ts i))). unfold Sched_plan.entry, entry_at. rewrite E. split; [reflexivity|]. split; reflexivity.
    - assert (Hj : 1 <= Z.of_nat i - fst (pos i)) by lia. specialize (Hrm Hj). assert (Hub := hintz_ub c iskey _ Hj). assert (Hlb := hintz_lb c iskey _ Hj).
      assert (HIg := ILg c iskey _ Hj). destruct (nkf_spec c iskey L (snd (pos i)) ltac:(lia) Hg) as [Hnk Hends].
      assert (Ee : entry i = Some (inter_info c (snd (pos i)) (Z.of_nat i - fst (pos i)) (ts i))).
      { unfold Sched_plan.entry, entry_at. destruct (Z.eqb_spec (Z.of_nat i - fst (pos i)) 0); [lia|]. unfold inputz.
        destruct (Z.eqb_spec (Z.of_nat i - fst (pos i)) 0); [lia|]. rewrite Hends by lia. rewrite EI in *.
        destruct (Z.leb_spec (nkf (snd (pos i))) (snd (pos i) + hintz c (Z.of_nat i - fst (pos i)))); [lia|reflexivity]. }
      eexists. split; [exact Ee|]. destruct (entry_shape c scene ps Hc Hps i _ HL Ee) as [_ Esh]; [apply inter_not_key|].
      rewrite Esh. unfold shape. rewrite Er. split; reflexivity. }
  induction i as [|i IH]; intros Hv.
  - split; [reflexivity|]. split; [reflexivity|]. split; [reflexivity|]. apply Ent. apply Hv. lia.
  - destruct (IH (valid_S c scene ps _ Hv)) as (Hpre & Hsb & Hpend & fi & Ee & Hsh & Ht). clear IH.
    assert (HL := Hv i ltac:(lia)). assert (HL2 := Hv (S i) ltac:(lia)).
    destruct (entry_input c iskey L Hps t35s i fi HL Ee) as (Hin & _ & Hin2). specialize (Hin2 Hsh).
    split; [|split; [|split]].
    + unfold Sched_plan.pre, Sched_plan.ppos. destruct (pos_facts c iskey L i) as (Hgo & _). set (gs := snd (pos i)) in *. set (go := fst (pos i)) in *.
      unfold inputz in Hin |- *. destruct (Z.eqb_spec (Z.of_nat (S i) - go) 0); [lia|].
      assert (Hh : forall j, 1 <= j -> hintz c j = j).
      { intros j Hj. unfold hintz, gidx, ridx. rewrite Ed, EI, EO, Z.div_1_r, Z.mod_1_r. cbn [Z.ltb Z.compare]. lia. }
      rewrite Hh by lia. destruct (Z.eqb_spec (Z.of_nat i - go) 0) as [E|E].
      * lia.
      * rewrite Hh in Hin by lia. lia.
    + rewrite (sb_S c iskey L t35s) by exact HL. rewrite Ee. cbn [shown]. rewrite Hsh. cbn [b2z]. lia.
    + cbn [Sched_plan.pending]. rewrite Ee, Hsh. reflexivity.
    + apply Ent. exact HL2.
Qed.
Lemma t35_of_app a b : t35_of (a ++ b) = t35_of a ++ t35_of b.
Proof. induction a as [|x a IH]; [reflexivity|]. destruct x; cbn; rewrite ?IH; reflexivity. Qed.
Lemma t35_of_map t : t35_of (map OT35 t) = t.
Proof. induction t as [|x t IH]; [reflexivity|]. cbn. rewrite IH. reflexivity. Qed.
Lemma ll_t35 : ic_reorder c = false -> forall e n p, valid c scene ps e -> nth_error (packets e) n = Some p -> t35_of (p_data p) = t35s (Z.of_nat n).
Proof.
  intros Er e n p Hv Hn. assert (Hfit : True) by exact Coq.Init.Logic.I.
  assert (X : exists i fi, (i < e)%nat /\ entry i = Some fi /\ fi_show fi = true /\ sb i = Z.of_nat n /\ p = packet_of i fi).
  { clear Er. revert n p Hn. induction e as [|e IH]; intros n p Hn; [destruct n; discriminate|].
    assert (Hl := packets_len c scene ps e (valid_S c scene ps _ Hv)). cbn [Sched_plan.packets] in Hn.
    destruct (Nat.lt_ge_cases n (length (packets e))) as [Hlt|Hge].
    - rewrite nth_error_app1 in Hn by exact Hlt. destruct (IH (valid_S c scene ps _ Hv) n p Hn) as (i & fi & H1 & H2). exists i, fi. split; [lia|exact H2].
    - rewrite nth_error_app2 in Hn by exact Hge. destruct (entry e) as [fi|] eqn:Ee; [|destruct (n - _)%nat; discriminate].
      destruct (fi_show fi) eqn:Es; [|destruct (n - _)%nat; discriminate].
      destruct (n - length (packets e))%nat as [|m] eqn:En; [|destruct m; discriminate]. injection Hn as <-.
      exists e, fi. split; [lia|]. split; [exact Ee|]. split; [exact Es|]. split; [|reflexivity].
      change (Z.of_nat (length (packets e)) = sb e) in Hl. lia. }
  destruct X as (i & fi & Hi & Ee & Hsh & Hsb & ->).
  assert (Hvi : valid c scene ps (S i)) by (intros k Hk; apply Hv; lia).
  destruct (ll_plan Er i Hvi) as (Hpre & Hsb2 & Hpend & fi' & Ee' & _ & Ht). rewrite Ee in Ee'. injection Ee' as <-.
  unfold Sched_plan.packet_of. cbn [p_data]. rewrite Hpend. unfold Sched_plan.frame_obus. cbn [app t35_of].
  rewrite !t35_of_app, t35_of_map. assert (E1 : t35_of (if is_key (fi_type fi) then [OSequence] else []) = []) by (destruct (is_key _); reflexivity).
  rewrite E1. assert (E2 : forall x y, t35_of [if fi_sef fi then OFrameHeader x else OFrame x y] = []) by (intros; destruct (fi_sef fi); reflexivity).
  rewrite E2. rewrite app_nil_r. cbn [app]. rewrite Ht. unfold Sched_plan.ts. replace (Z.of_nat n) with (pre i) by lia.
  replace (taken i (pre i)) with false; [reflexivity|]. symmetry. unfold Sched_plan.taken.
  apply not_true_is_false. intros H. apply existsb_exists in H. destruct H as (k & Hk & E). apply in_seq in Hk. apply Z.eqb_eq in E.
  assert (Hvk : valid c scene ps (S k)) by (intros m Hm; apply Hv; lia). destruct (ll_plan Er k Hvk) as (Hpk & _). lia.
Qed.
End Lat.
