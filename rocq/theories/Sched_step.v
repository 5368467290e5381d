(** Every API call preserves the invariant of [Sched_inv] and emits the plan's
    packets in order: frame construction loops, send_frame, flush,
    receive_packet, and whole histories. *)
From Verif Require Import Base SMap Sched_model Sched_plan Sched_inv.

Section Step.
Variable c : config.
Variable scene : Z -> bool.
Variable ps : list (option params).
Hypothesis Hc : cfg_ok c.
Hypothesis Hps : zlen ps < 2 ^ 31.

Notation iskey := (keyf scene ps).
Notation L := (zlen ps).
Notation t35s := (t35f ps).
Notation opq := (opqf ps).
Notation gstart := (gstart c iskey).
Notation ends := (ends c iskey L).
Notation nkf := (nkf c iskey L).
Notation pos := (pos c iskey L).
Notation ppos := (ppos c iskey L).
Notation pre := (pre c iskey L).
Notation taken := (taken c iskey L).
Notation ts := (ts c iskey L t35s).
Notation entry := (entry c iskey L t35s).
Notation coded := (coded c iskey L t35s).
Notation sb := (sb c iskey L).
Notation real := (real c iskey L t35s).
Notation src := (src c iskey L t35s).
Notation dpb := (dpb c iskey L t35s).
Notation pending := (pending c iskey L t35s).
Notation packets := (packets c iskey L t35s opq).
Notation packet_of := (packet_of c iskey L t35s opq).
Notation frame_obus := (frame_obus c iskey L t35s).
Notation frame_pic := (frame_pic c iskey L t35s).
Notation IL := (ic_in_len c).
Notation OL := (ic_out_len c).
Notation InvB := (InvB c scene ps).
Notation HB := (HB c scene ps).
Notation data_ok := (data_ok c scene ps).
Notation nocoded := (nocoded c scene ps).

Let Hkf : 1 <= cf_max_kf c := proj1 Hc.

Lemma set_nth_app {A} (x : A) l l' i : set_nth (length l + i) x (l ++ l') = l ++ set_nth i x l'.
Proof. induction l as [|y r IH]; cbn; [reflexivity|]. rewrite IH. reflexivity. Qed.

(** ** Building frames *)

(** The state after a failed attempt. *)
Lemma InvB_fail s fl lo e o ds go gi t : InvB s fl lo e o ds -> gops_same s o go gi ->
  (t = s_t35 s \/ (t = del (pre o) (s_t35 s) /\ s_frame_count s <= pre o)) ->
  InvB (upd s go gi t (s_data s) (s_next_la_out s)) fl lo e o ds.
Proof.
  intros I Hg Ht. destruct I. constructor; cbn [upd s_frame_count s_limit s_out s_processed s_frame_q s_data s_keyframes
    s_forced s_packet_data s_gop_out s_gop_in s_next_la s_next_la_out s_opaque s_t35 s_flushing]; try assumption.
  - intros n Hn. rewrite <- b_t35 by exact Hn. destruct Ht as [->|[-> Hle]]; [reflexivity|].
    rewrite get_del. destruct (Z.eqb_spec n (pre o)) as [->|]; [|reflexivity].
    rewrite b_t35 by exact Hn. destruct (taken o (pre o)); [reflexivity|].
    destruct (Z.ltb_spec (pre o) (s_frame_count s)); [lia|reflexivity].
  - intros i Hi Ho. destruct (Hg (Z.of_nat i)) as [-> ->]; [lia|]. apply b_gop; assumption.
Qed.

Lemma taken_S i n : taken (S i) n = taken i n || (pre i =? n).
Proof.
  unfold Sched_plan.taken. rewrite seq_S. cbn [plus]. rewrite existsb_app. cbn [existsb]. rewrite orb_false_r. reflexivity.
Qed.

(** The state after a successful one. *)
Lemma InvB_extend s fl lo e o ds go gi x : InvB s fl lo e o ds -> gops_same s o go gi ->
  get (Z.of_nat o) go = Some (fst (pos o)) -> get (Z.of_nat o) gi = Some (snd (pos o)) ->
  snd (pos o) < L -> Z.of_nat o <= 6 * s_frame_count s + 6 -> data_ok e o x ->
  (s_flushing s = false -> pre o < s_frame_count s) -> (forall fi, entry o = Some fi -> fi_input fi < s_next_la s) ->
  InvB (upd s go gi (del (pre o) (s_t35 s)) (zmap lo (ds ++ [x])) (Z.of_nat o + 1)) fl lo e (S o) (ds ++ [x]).
Proof.
  intros I Hg Hgo Hgi HL Hb Hx Hpr Hse. destruct I. constructor; cbn [upd s_frame_count s_limit s_out s_processed s_frame_q s_data s_keyframes
    s_forced s_packet_data s_gop_out s_gop_in s_next_la s_next_la_out s_opaque s_t35 s_flushing]; try assumption; try reflexivity.
  - intros n Hn. rewrite get_del, taken_S. destruct (Z.eqb_spec n (pre o)) as [->|Hne].
    + rewrite Z.eqb_refl, orb_true_r. reflexivity.
    + destruct (Z.eqb_spec (pre o) n); [congruence|]. rewrite orb_false_r. apply b_t35. exact Hn.
  - intros i Hi Ho. destruct (Nat.eq_dec i o) as [->|Hne]; [split; assumption|].
    destruct (Hg (Z.of_nat i)) as [-> ->]; [lia|]. apply b_gop; [assumption|lia].
  - rewrite zlen_app, zlen_cons, zlen_nil. lia.
  - intros i Hi Ho. destruct (Nat.eq_dec i o) as [->|Hne].
    + rewrite dat_last by lia. exact Hx.
    + rewrite dat_app1 by lia. apply b_dat; [assumption|lia].
  - lia.
  - lia.
  - intros i Hi. destruct (Nat.eq_dec i o) as [->|Hne]; [exact HL|]. apply b_valid. lia.
  - intros i Hi. destruct (Nat.eq_dec i o) as [->|Hne]; [exact Hb|]. apply b_bound. lia.
  - intros i fi Hi Hfi. destruct (Nat.eq_dec i o) as [->|Hne]; [apply Hse; exact Hfi|]. apply (b_seen i); [lia|exact Hfi].
  - intros Hf i Hi. destruct (Nat.eq_dec i o) as [->|Hne]; [apply Hpr; exact Hf|]. apply b_pre; [exact Hf|lia].
Qed.

Lemma entry_0 : entry 0 = Some (fd_fi (new_key_frame 0 (ts 0))).
Proof. reflexivity. Qed.
Lemma entry_key i fi : entry i = Some fi -> is_key (fi_type fi) = true ->
  Z.of_nat i = fst (pos i) /\ fi_refresh fi = 255 /\ fi_sef fi = false /\ fi_show fi = true /\ fi_hint fi = 0.
Proof.
  unfold Sched_plan.entry, entry_at. destruct (Z.eqb_spec (Z.of_nat i - fst (pos i)) 0) as [E|E].
  - intros [= <-] _. cbn. repeat split. lia.
  - destruct (ends _ _); [discriminate|]. intros [= <-] H. rewrite inter_not_key in H. discriminate.
Qed.

Lemma HB_S e o : HB e o -> HB e (S o).
Proof.
  intros [[-> ->]|(i & Hi & Hcd)]; right.
  - exists 0%nat. split; [lia|]. reflexivity.
  - exists i. split; [lia|exact Hcd].
Qed.

(** One iteration of compute_frame_invariants that builds a frame. *)
Lemma iter_ok s fl lo e o ds go gi x : InvB s fl lo e o ds -> HB e o ->
  gops_same s o go gi -> get (Z.of_nat o) go = Some (fst (pos o)) -> get (Z.of_nat o) gi = Some (snd (pos o)) ->
  snd (pos o) < L -> Z.of_nat o <= 6 * s_frame_count s + 6 -> new_ok c scene ps (has_frame s) (s_next_la s) o x ->
  let s1 := upd s go gi (del (pre o) (s_t35 s)) (put (Z.of_nat o) x (s_data s)) (s_next_la_out s) in
  exists s2 y, lookahead_mvs c s1 (s_next_la_out s1) = Some s2 /\ intra_costs_ok s2 (s_next_la_out s2) = true /\
    set_la_out (s_next_la_out s2 + 1) s2 = upd s go gi (del (pre o) (s_t35 s)) (zmap lo (ds ++ [y])) (Z.of_nat o + 1) /\
    data_ok e o y.
Proof.
  intros I HBo Hg Hgo Hgi HL Hb Hx s1.
  pose proof (b_lo _ _ _ _ _ _ _ _ _ I) as (Hlo & Heo). pose proof (b_len _ _ _ _ _ _ _ _ _ I) as Hlen.
  assert (Edat : put (Z.of_nat o) x (s_data s) = zmap lo (ds ++ [x])).
  { rewrite (b_data _ _ _ _ _ _ _ _ _ I), <- Hlen. apply zmap_put_end. }
  subst s1. rewrite Edat. clear Edat.
  unfold lookahead_mvs, intra_costs_ok. cbn [upd s_next_la_out s_data s_out].
  rewrite (b_o _ _ _ _ _ _ _ _ _ I), (b_out _ _ _ _ _ _ _ _ _ I).
  assert (Eg : forall y, get (Z.of_nat o) (zmap lo (ds ++ [y])) = Some y).
  { intros y. rewrite dat_get by (rewrite zlen_app, zlen_cons, zlen_nil; lia). rewrite dat_last by lia. reflexivity. }
  rewrite Eg. unfold new_ok in Hx.
  destruct (entry o) as [fi|] eqn:Ee; destruct x as [d|]; try contradiction.
  - destruct Hx as (Hhf & _ & <- & Hout & Hk & Hnk).
    destruct (fi_sef (fd_fi d)) eqn:Es.
    + eexists. exists (Some d). split; [reflexivity|]. cbn [upd s_next_la_out s_data]. rewrite ?(b_o _ _ _ _ _ _ _ _ _ I), Eg, Es.
      split; [reflexivity|]. split; [unfold set_la_out; cbn; rewrite ?(b_o _ _ _ _ _ _ _ _ _ I); reflexivity|].
      unfold data_ok. rewrite Ee. split; [reflexivity|]. split; [congruence|]. intros _. split; [exact Hout|].
      destruct (is_key (fi_type (fd_fi d))) eqn:Ek.
      { destruct (entry_key _ _ Ee Ek) as (_ & _ & F & _). congruence. }
      split; [discriminate|]. intros _. split; [|congruence]. intros Hnc. exfalso.
      destruct HBo as [[-> ->]|(i & Hi & Hcd)].
      * rewrite entry_0 in Ee. injection Ee as Ee. rewrite <- Ee in Ek. discriminate.
      * rewrite (Hnc i Hi) in Hcd. discriminate.
    + match goal with |- context [guess_ok ?X] => assert (Hgok : guess_ok X = true) end.
      { unfold guess_ok. cbn [upd s_out s_gop_in s_gop_out]. rewrite ?(b_out _ _ _ _ _ _ _ _ _ I).
        destruct (Z.eqb_spec (Z.of_nat e) 0); [reflexivity|]. cbn [orb].
        destruct (Nat.eq_dec e o) as [->|Hne]; [rewrite Hgo, Hgi; reflexivity|].
        destruct (Hg (Z.of_nat e) ltac:(lia)) as [-> ->].
        destruct (b_gop _ _ _ _ _ _ _ _ _ I e ltac:(lia) ltac:(lia)) as [-> ->]. reflexivity. }
      rewrite Hgok. cbn [negb].
      set (d' := FData _ _ _ _ _). eexists. exists (Some d'). split; [reflexivity|].
      cbn [set_data s_next_la_out s_data].
      assert (Eput : put (Z.of_nat o) (Some d') (zmap lo (ds ++ [Some d])) = zmap lo (ds ++ [Some d'])).
      { rewrite zmap_put_mid by (rewrite zlen_app, zlen_cons, zlen_nil; lia). f_equal.
        replace (Z.to_nat (Z.of_nat o - lo)) with (length ds + 0)%nat by (unfold zlen in Hlen; lia).
        rewrite set_nth_app. reflexivity. }
      rewrite ?(b_o _ _ _ _ _ _ _ _ _ I), Eput, Eg. split.
      { subst d'. cbn [fd_fi]. rewrite Es. cbn [orb]. exact Hhf. }
      split; [unfold set_la_out, set_data; cbn; rewrite ?(b_o _ _ _ _ _ _ _ _ _ I), ?Eput; reflexivity|].
      unfold data_ok. rewrite Ee. subst d'. cbn [fd_fi fd_la fd_out fd_rec fd_bias].
      split; [reflexivity|].
      assert (Hsrc : refresh (fi_refresh (fd_fi d)) (RefFrame (fi_hint (fd_fi d)) (Z.of_nat o) (Source (fi_input (fd_fi d)))) (fd_la d) = src (S o)).
      { unfold Sched_plan.src at 1. cbn [Sched_plan.dpb]. rewrite Ee, Es.
        destruct (is_key (fi_type (fd_fi d))) eqn:Ek.
        - destruct (entry_key _ _ Ee Ek) as (_ & Er & _). rewrite Er. destruct (Hk eq_refl) as [_ ->].
          rewrite !refresh_all; [reflexivity|apply dpb_length|reflexivity].
        - rewrite (Hnk eq_refl eq_refl). reflexivity. }
      split; [intros _; exact Hsrc|]. intros _. split; [exact Hout|]. split.
      * intros Ek. destruct (Hk Ek) as [H1 H2]. destruct (Z.of_nat e =? Z.of_nat o); assumption.
      * intros Ek. destruct HBo as [[-> ->]|(i & Hi & Hcd)].
        { rewrite entry_0 in Ee. injection Ee as Ee. rewrite <- Ee in Ek. discriminate. }
        split.
        -- intros Hnc. rewrite (Hnc i Hi) in Hcd. discriminate.
        -- intros _. right. destruct (Z.eqb_spec (Z.of_nat e) (Z.of_nat o)); [lia|]. apply Hnk; [exact Ek|reflexivity].
  - eexists. exists None. split; [reflexivity|]. cbn [upd s_next_la_out s_data]. rewrite ?(b_o _ _ _ _ _ _ _ _ _ I), Eg. split; [reflexivity|].
    split; [unfold set_la_out; cbn; rewrite ?(b_o _ _ _ _ _ _ _ _ _ I); reflexivity|]. unfold data_ok. rewrite Ee. exact Coq.Init.Logic.I.
Qed.

(** compute_frame_invariants never panics, never runs out of fuel, and builds
    the plan up to a point that only depends on the frames received. *)
Lemma compute_invariants_total : forall fuel s fl lo e o ds, InvB s fl lo e o ds -> HB e o ->
  1 <= s_frame_count s \/ s_flushing s = true ->
  6 * s_frame_count s + 8 <= Z.of_nat o + Z.of_nat fuel ->
  exists s' o' ds', compute_invariants fuel c s = Some s' /\ InvB s' fl lo e o' ds' /\ HB e o' /\ (o <= o')%nat /\
    s_frame_count s' = s_frame_count s /\ s_flushing s' = s_flushing s /\
    (s_flushing s = true -> L <= snd (pos o')) /\
    (s_flushing s = false -> s_frame_count s - 1 < pre o' + kf_lookahead c + 1).
Proof.
  induction fuel as [|fuel IH]; intros s fl lo e o ds I HBo Hfc Hf.
  - exfalso. assert (Hfc0 := b_fc _ _ _ _ _ _ _ _ _ I). destruct o as [|o]; [lia|].
    assert (Ho := b_bound _ _ _ _ _ _ _ _ _ I o ltac:(lia)). lia.
  - cbn [compute_invariants]. rewrite (b_o _ _ _ _ _ _ _ _ _ I).
    destruct (build_cases c scene ps Hc Hps _ _ _ _ _ _ I HBo Hfc)
      as [(go & gi & t & E & Hg & Ht & H1 & H2)|(go & gi & x & E & Hg & Hgo & Hgi & HL & Hb & Hpr & Hx)]; rewrite E.
    + eexists _, o, ds. split; [reflexivity|]. split; [apply InvB_fail; assumption|]. split; [exact HBo|].
      split; [lia|]. split; [reflexivity|]. split; [reflexivity|]. split; assumption.
    + destruct (iter_ok _ _ _ _ _ _ _ _ x I HBo Hg Hgo Hgi HL Hb Hx) as (s2 & y & E1 & E2 & E3 & E4).
      rewrite E1, E2, andb_false_r, E3.
      assert (Hse : forall fi, entry o = Some fi -> fi_input fi < s_next_la s).
      { intros fi Hfi. unfold new_ok in Hx. rewrite Hfi in Hx. destruct x; [|contradiction]. apply Hx. }
      assert (I2 := InvB_extend _ _ _ _ _ _ _ _ _ I Hg Hgo Hgi HL Hb E4 Hpr Hse).
      destruct (IH _ _ _ _ _ _ I2 (HB_S _ _ HBo) Hfc ltac:(cbn [upd s_frame_count]; lia))
        as (s' & o' & ds' & F1 & F2 & F3 & F4 & F5 & F6 & F7 & F8).
      exists s', o', ds'. split; [exact F1|]. split; [exact F2|]. split; [exact F3|]. split; [lia|].
      split; [exact F5|]. split; [exact F6|]. split; assumption.
Qed.

(** ** Sending frames *)
Lemma keys_below m : Forall (fun x => x < m) (0 :: filter iskey (zseq 1 (Z.to_nat (m - 1)))) \/ m < 1.
Proof.
  destruct (Z_lt_le_dec m 1) as [H|H]; [right; exact H|left]. constructor; [lia|].
  apply Forall_forall. intros x Hx. apply filter_In in Hx. destruct Hx as [Hx _]. apply in_zseq in Hx. lia.
Qed.
Lemma placement_one s m : 1 <= m -> s_next_la s = m ->
  s_keyframes s = 0 :: filter iskey (zseq 1 (Z.to_nat (m - 1))) -> sin m (s_forced s) = forcedf ps m ->
  keyframe_placement scene s = set_la (0 :: filter iskey (zseq 1 (Z.to_nat (m + 1 - 1)))) (m + 1) s.
Proof.
  intros Hm Ela Ek Ef. unfold keyframe_placement. rewrite Ela, Ef, Ek. fold (keyf scene ps m).
  replace (Z.to_nat (m + 1 - 1)) with (S (Z.to_nat (m - 1))) by lia.
  rewrite zseq_snoc, filter_app. replace (1 + Z.of_nat (Z.to_nat (m - 1))) with m by lia. cbn [filter].
  destruct (iskey m).
  - rewrite sput_end by (destruct (keys_below m); [assumption|lia]). reflexivity.
  - rewrite app_nil_r. reflexivity.
Qed.
Lemma placement_many : forall r s m, 1 <= m -> s_next_la s = m ->
  s_keyframes s = 0 :: filter iskey (zseq 1 (Z.to_nat (m - 1))) ->
  (forall x, m <= x < m + Z.of_nat r - 1 -> sin x (s_forced s) = forcedf ps x) ->
  placement_all r scene s =
  set_la (0 :: filter iskey (zseq 1 (Z.to_nat (Z.max m (m + Z.of_nat r - 1) - 1)))) (Z.max m (m + Z.of_nat r - 1)) s.
Proof.
  induction r as [|r IH]; intros s m Hm Ela Ek Ef.
  - cbn [placement_all]. replace (Z.max m (m + Z.of_nat 0 - 1)) with m by lia.
    rewrite <- Ek, <- Ela. destruct s; reflexivity.
  - destruct r as [|r].
    + cbn [placement_all]. replace (Z.max m (m + Z.of_nat 1 - 1)) with m by lia.
      rewrite <- Ek, <- Ela. destruct s; reflexivity.
    + change (placement_all (S (S r)) scene s) with (placement_all (S r) scene (keyframe_placement scene s)).
      rewrite (placement_one s m Hm Ela Ek) by (apply Ef; lia).
      rewrite (IH _ (m + 1)); [|lia|reflexivity|reflexivity|].
      * replace (Z.max (m + 1) (m + 1 + Z.of_nat (S r) - 1)) with (Z.max m (m + Z.of_nat (S (S r)) - 1)) by lia.
        reflexivity.
      * intros x Hx. cbn [set_la s_forced]. apply Ef. lia.
Qed.

Lemma kfl_pos : 0 <= kf_lookahead c.
Proof. unfold kf_lookahead. destruct (cases_mode c) as [(_ & _ & -> & _)|(_ & _ & -> & _)]; lia. Qed.

Lemma par_at k p : 0 <= k -> nth_error ps (Z.to_nat k) = Some p -> par ps k = p.
Proof. intros Hk H. unfold par. rewrite H. reflexivity. Qed.

Lemma q_send s fl lo e o ds : InvB s fl lo e o ds -> s_flushing s = false ->
  put (s_frame_count s) true (s_frame_q s) = zmap fl (repeat true (Z.to_nat (s_frame_count s + 1 - fl)) ++ []).
Proof.
  intros I Hf. rewrite (b_q _ _ _ _ _ _ _ _ _ I), Hf, !app_nil_r. pose proof (b_fl _ _ _ _ _ _ _ _ _ I) as (Hfl & _).
  replace (s_frame_count s) with (fl + zlen (repeat true (Z.to_nat (s_frame_count s - fl)))) at 1
    by (rewrite zlen_repeat; lia).
  rewrite zmap_put_end. f_equal. replace (Z.to_nat (s_frame_count s + 1 - fl)) with (Z.to_nat (s_frame_count s - fl) + 1)%nat by lia.
  rewrite repeat_app. reflexivity.
Qed.
Lemma q_flush s fl lo e o ds : InvB s fl lo e o ds -> s_flushing s = false ->
  put (s_frame_count s) false (s_frame_q s) = zmap fl (repeat true (Z.to_nat (s_frame_count s - fl)) ++ [false]).
Proof.
  intros I Hf. rewrite (b_q _ _ _ _ _ _ _ _ _ I), Hf, !app_nil_r. pose proof (b_fl _ _ _ _ _ _ _ _ _ I) as (Hfl & _).
  replace (s_frame_count s) with (fl + zlen (repeat true (Z.to_nat (s_frame_count s - fl)))) at 1
    by (rewrite zlen_repeat; lia).
  apply zmap_put_end.
Qed.

Lemma sin_sput n k l : sin n (sput k l) = (n =? k) || sin n l.
Proof.
  apply Bool.eq_iff_eq_true. rewrite orb_true_iff, !sin_in, in_sput, Z.eqb_eq. reflexivity.
Qed.

(** The input-side state after a send. *)
Definition sent_state (s : st) (p : option params) (keys : list Z) (la : Z) : st :=
  set_la keys la
   (set_input (s_frame_count s + 1) (put (s_frame_count s) true (s_frame_q s))
     (match p with Some p => if pr_key p then sput (s_frame_count s) (s_forced s) else s_forced s | None => s_forced s end)
     (match p with Some (Params _ (Some op) _) => put (s_frame_count s) op (s_opaque s) | _ => s_opaque s end)
     (match p with Some p => put (s_frame_count s) (pr_t35 p) (s_t35 s) | None => s_t35 s end) s).

Lemma InvB_sent s fl lo e o ds p : InvB s fl lo e o ds -> s_flushing s = false -> s_frame_count s < L ->
  nth_error ps (Z.to_nat (s_frame_count s)) = Some p ->
  let la := Z.max 1 (s_frame_count s - kf_lookahead c) in
  InvB (sent_state s p (0 :: filter iskey (zseq 1 (Z.to_nat (la - 1)))) la) fl lo e o ds.
Proof.
  intros I Hf HL Hp la. assert (Hq := q_send _ _ _ _ _ _ I Hf).
  assert (Hk := kfl_pos).
  assert (Hpar : par ps (s_frame_count s) = p).
  { apply par_at; [|exact Hp]. pose proof (b_fc _ _ _ _ _ _ _ _ _ I). lia. }
  destruct I. rewrite Hf in *. constructor;
    cbn [sent_state set_la set_input s_frame_count s_limit s_out s_processed s_frame_q s_data s_keyframes
    s_forced s_packet_data s_gop_out s_gop_in s_next_la s_next_la_out s_opaque s_t35 s_flushing]; rewrite ?Hf; try assumption; try reflexivity.
  - lia.
  - discriminate.
  - subst la. split; [lia|]. split; [lia|]. split; [lia|]. lia.
  - subst la. f_equal. lia.
  - intros n Hn. assert (E : sin n (match p with Some p => if pr_key p then sput (s_frame_count s) (s_forced s) else s_forced s | None => s_forced s end)
        = ((n =? s_frame_count s) && match p with Some p => pr_key p | None => false end) || sin n (s_forced s)).
    { destruct p as [p|]; [destruct (pr_key p); [rewrite sin_sput, andb_true_r; reflexivity|]|]; rewrite andb_false_r; reflexivity. }
    rewrite E, b_forced by exact Hn. unfold forcedf at 2.
    destruct (Z.eqb_spec n (s_frame_count s)) as [->|Hne].
    + unfold forcedf. rewrite Hpar, Z.ltb_irrefl, andb_false_r, orb_false_r. cbn [andb].
      destruct (Z.ltb_spec (s_frame_count s) (s_frame_count s + 1)); [|lia]. rewrite andb_true_r. reflexivity.
    + cbn [andb orb]. unfold forcedf. f_equal. destruct (Z.ltb_spec n (s_frame_count s)), (Z.ltb_spec n (s_frame_count s + 1)); lia || reflexivity.
  - intros n Hn. destruct (Z.eq_dec n (s_frame_count s)) as [->|Hne].
    + destruct (Z.ltb_spec (s_frame_count s) (s_frame_count s + 1)); [|lia]. unfold opqf. rewrite Hpar.
      specialize (b_opq _ Hn). rewrite Z.ltb_irrefl in b_opq.
      destruct p as [[k [op|] t]|]; cbn [pr_opaque]; [apply get_put_same| |]; exact b_opq.
    + assert (E : get n (match p with Some (Params _ (Some op) _) => put (s_frame_count s) op (s_opaque s) | _ => s_opaque s end) = get n (s_opaque s)).
      { destruct p as [[k [op|] t]|]; [apply get_put_other; exact Hne| |]; reflexivity. }
      rewrite E, b_opq by exact Hn.
      destruct (Z.ltb_spec n (s_frame_count s)), (Z.ltb_spec n (s_frame_count s + 1)); lia || reflexivity.
  - intros n Hn. destruct (Z.eq_dec n (s_frame_count s)) as [->|Hne].
    + assert (Htk : taken o (s_frame_count s) = false).
      { destruct (taken o (s_frame_count s)) eqn:E; [|reflexivity]. exfalso. unfold Sched_plan.taken in E.
        apply existsb_exists in E. destruct E as (i & Hi & E). apply in_seq in Hi.
        assert (X := b_pre eq_refl i ltac:(lia)). lia. }
      rewrite Htk. destruct (Z.ltb_spec (s_frame_count s) (s_frame_count s + 1)); [|lia]. unfold t35f. rewrite Hpar.
      specialize (b_t35 _ Hn). rewrite Htk, Z.ltb_irrefl in b_t35.
      destruct p as [p|]; [rewrite get_put_same; reflexivity|exact b_t35].
    + assert (E : get n (match p with Some p => put (s_frame_count s) (pr_t35 p) (s_t35 s) | None => s_t35 s end) = get n (s_t35 s)).
      { destruct p; [apply get_put_other; exact Hne|reflexivity]. }
      rewrite E, b_t35 by exact Hn. destruct (taken o n); [reflexivity|].
      destruct (Z.ltb_spec n (s_frame_count s)), (Z.ltb_spec n (s_frame_count s + 1)); lia || reflexivity.
  - intros i Hi. specialize (b_bound i Hi). lia.
  - intros i fi Hi Hfi. specialize (b_seen i fi Hi Hfi). subst la. lia.
  - intros _ i Hi. specialize (b_pre eq_refl i Hi). lia.
Qed.

(** A state between two API calls. *)
Definition Inv (s : st) (e : nat) : Prop :=
  exists fl lo o ds, InvB s fl lo e o ds /\ (s_flushing s = false -> HB e o) /\
    (s_flushing s = true -> L <= snd (pos o)) /\
    (s_flushing s = false -> 1 <= s_frame_count s -> s_frame_count s - 1 < pre o + kf_lookahead c + 1).

Lemma Inv_init : Inv init 0.
Proof.
  exists 0, 0, 0%nat, []. split; [|split; [|split; [|]]]; try discriminate.
  - constructor; try reflexivity; cbn [init s_frame_count s_limit s_out s_processed s_frame_q s_data s_keyframes
      s_forced s_packet_data s_gop_out s_gop_in s_next_la s_next_la_out s_opaque s_t35 s_flushing];
      change (sb 0) with 0; try (intros; lia); try discriminate.
    + assert (H := zlen_nonneg _ ps). lia.
    + assert (H := kfl_pos). lia.
    + intros n Hn. destruct (Z.ltb_spec n 0); [lia|]. rewrite andb_false_r. reflexivity.
    + intros n Hn. destruct (Z.ltb_spec n 0); [lia|reflexivity].
    + intros n Hn. destruct (Z.ltb_spec n 0); [lia|reflexivity].
  - intros _. left. auto.
  - cbn. lia.
Qed.

Lemma send_ok s e p : Inv s e -> s_flushing s = false -> s_frame_count s < L ->
  nth_error ps (Z.to_nat (s_frame_count s)) = Some p ->
  exists s', inner_send scene c s true p = Some s' /\ Inv s' e /\ s_flushing s' = false /\
    s_frame_count s' = s_frame_count s + 1.
Proof.
  intros (fl & lo & o & ds & I & HBo & _ & _) Hf HL Hp. specialize (HBo Hf).
  assert (Hk := kfl_pos). assert (I2 := InvB_sent _ _ _ _ _ _ p I Hf HL Hp). cbn zeta in I2.
  assert (Hfc := b_fc _ _ _ _ _ _ _ _ _ I). assert (Hq := q_send _ _ _ _ _ _ I Hf).
  pose proof (b_fl _ _ _ _ _ _ _ _ _ I) as (Hfl & _).
  set (s2 := sent_state _ _ _ _) in I2.
  assert (E : inner_send scene c s true p = compute_invariants (ci_fuel s2) c s2).
  { unfold inner_send. cbn [negb]. set (s1 := set_input _ _ _ _ _ s).
    assert (Enm : needs_more_q c s1 (s_next_la s1) = (s_frame_count s <? s_next_la s + kf_lookahead c + 1)).
    { unfold needs_more_q, needs_more_frames. subst s1. cbn [set_input s_frame_q s_limit s_next_la].
      rewrite (b_lim _ _ _ _ _ _ _ _ _ I), Hf, Hq, andb_true_r, app_nil_r.
      assert (Er : exists m, Z.to_nat (s_frame_count s + 1 - fl) = S m) by (exists (Z.to_nat (s_frame_count s - fl)); lia).
      rewrite zmap_last_key by (destruct Er as [m ->]; discriminate).
      rewrite zlen_repeat. f_equal. lia. }
    rewrite Enm. assert (Hla := b_la _ _ _ _ _ _ _ _ _ I). rewrite Hf in Hla.
    destruct (Z.ltb_spec (s_frame_count s) (s_next_la s + kf_lookahead c + 1)) as [H|H]; cbn [negb].
    - assert (E1 : s1 = s2); [|rewrite E1; reflexivity]. subst s1 s2. unfold sent_state.
      replace (Z.max 1 (s_frame_count s - kf_lookahead c)) with (s_next_la s) by lia.
      rewrite <- (b_keys _ _ _ _ _ _ _ _ _ I). reflexivity.
    - rewrite (placement_one s1 (s_next_la s)); [|lia|reflexivity|exact (b_keys _ _ _ _ _ _ _ _ _ I)|].
      + assert (E1 : Z.max 1 (s_frame_count s - kf_lookahead c) = s_next_la s + 1) by lia.
        unfold s2. rewrite E1. reflexivity.
      + assert (X := b_forced _ _ _ _ _ _ _ _ _ I2 (s_next_la s) ltac:(lia)).
        cbn [s2 sent_state set_la set_input s_forced s_frame_count] in X. subst s1. cbn [set_input s_forced].
        rewrite X. destruct (Z.ltb_spec (s_next_la s) (s_frame_count s + 1)); [|lia]. apply andb_true_r. }
  rewrite E. clear E.
  destruct (compute_invariants_total (ci_fuel s2) s2 fl lo e o ds I2 HBo) as (s' & o' & ds' & F1 & F2 & F3 & F4 & F5 & F6 & F7 & F8).
  - left. cbn. lia.
  - unfold ci_fuel. assert (0 <= s_frame_count s2) by (cbn; lia). lia.
  - exists s'. split; [exact F1|]. assert (Hf2 : s_flushing s2 = false) by exact Hf. split.
    + exists fl, lo, o', ds'. split; [exact F2|]. split; [intros _; exact F3|]. split; [intros X; congruence|].
      rewrite F5. intros _ _. apply F8. exact Hf2.
    + split; [congruence|]. rewrite F5. reflexivity.
Qed.

Definition flushed_state (s : st) (keys : list Z) (la : Z) : st :=
  set_la keys la
   (set_input (s_frame_count s) (put (s_frame_count s) false (s_frame_q s)) (s_forced s) (s_opaque s) (s_t35 s)
     (set_limit (Some (s_frame_count s)) s)).

Lemma InvB_flushed s fl lo e o ds : InvB s fl lo e o ds -> s_flushing s = false -> s_frame_count s = L ->
  InvB (flushed_state s (0 :: filter iskey (zseq 1 (Z.to_nat (Z.max 1 L - 1)))) (Z.max 1 L)) fl lo e o ds.
Proof.
  intros I Hf HL. assert (Hq := q_flush _ _ _ _ _ _ I Hf). assert (Hk := kfl_pos).
  destruct I. rewrite Hf in *. constructor;
    cbn [flushed_state set_la set_input set_limit s_frame_count s_limit s_out s_processed s_frame_q s_data s_keyframes
    s_forced s_packet_data s_gop_out s_gop_in s_next_la s_next_la_out s_opaque s_t35 s_flushing]; try assumption; try reflexivity.
  - rewrite HL. reflexivity.
  - intros _. exact HL.
  - lia.
  - intros i fi Hi Hfi. specialize (b_seen i fi Hi Hfi). lia.
  - discriminate.
Qed.

Lemma filter_true_repeat lo n l : filter (fun kb : Z * bool => snd kb) (zmap lo (repeat true n ++ l)) =
  zmap lo (repeat true n) ++ filter (fun kb : Z * bool => snd kb) (zmap (lo + Z.of_nat n) l).
Proof.
  revert lo. induction n as [|n IH]; intros lo; cbn [repeat app zmap filter snd].
  - f_equal. f_equal. lia.
  - rewrite IH. f_equal. f_equal. f_equal. f_equal. lia.
Qed.
Lemma zmap_length {A} (l : list A) : forall lo, length (zmap lo l) = length l.
Proof. induction l as [|x r IH]; intros lo; cbn; [reflexivity|]. rewrite IH. reflexivity. Qed.
Lemma skipn_repeat {A} (x : A) n m : skipn m (repeat x n) = repeat x (n - m).
Proof. revert m. induction n as [|n IH]; intros [|m]; cbn; try reflexivity. apply IH. Qed.

Lemma flush_ok s e : Inv s e -> s_flushing s = false -> s_frame_count s = L ->
  exists s', inner_send scene c (set_limit (Some (s_frame_count s)) s) false None = Some s' /\ Inv s' e /\
    s_flushing s' = true /\ s_frame_count s' = L.
Proof.
  intros (fl & lo & o & ds & I & HBo & _ & _) Hf HL. specialize (HBo Hf).
  assert (Hk := kfl_pos). assert (I2 := InvB_flushed _ _ _ _ _ _ I Hf HL).
  assert (Hfc := b_fc _ _ _ _ _ _ _ _ _ I). assert (Hq := q_flush _ _ _ _ _ _ I Hf).
  pose proof (b_fl _ _ _ _ _ _ _ _ _ I) as (Hfl & _ & _ & Hfla).
  assert (Hla := b_la _ _ _ _ _ _ _ _ _ I). rewrite Hf in Hla.
  set (s2 := flushed_state _ _ _) in I2.
  assert (E : inner_send scene c (set_limit (Some (s_frame_count s)) s) false None = compute_invariants (ci_fuel s2) c s2).
  { unfold inner_send. cbn [negb]. set (s1 := set_input _ _ _ _ _ _).
    assert (Enm : needs_more_q c s1 (s_next_la s1) = false).
    { unfold needs_more_q, needs_more_frames. subst s1. cbn [set_input set_limit s_frame_q s_limit s_next_la s_frame_count].
      rewrite Hq, zmap_last_key by (destruct (repeat _ _); discriminate).
      rewrite zlen_app, zlen_repeat, zlen_cons, zlen_nil. 
      replace (fl + (Z.of_nat (Z.to_nat (s_frame_count s - fl)) + (0 + 1)) - 1) with (s_frame_count s) by lia.
      rewrite Z.ltb_irrefl. apply andb_false_r. }
    rewrite Enm. cbn [negb].
    assert (En : length (filter (fun kb : Z * bool => snd kb) (from_key (s_next_la s1 - 1) (s_frame_q s1))) =
                 Z.to_nat (L - s_next_la s + 1)).
    { subst s1. cbn [set_input set_limit s_frame_q s_next_la s_frame_count].
      rewrite Hq, zmap_from by lia. rewrite skipn_app, skipn_repeat, repeat_length.
      rewrite filter_true_repeat, app_length, zmap_length, repeat_length.
      assert (E1 : forall m x, filter (fun kb : Z * bool => snd kb) (zmap x (skipn m [false])) = [])
        by (intros [|[|m]] x; reflexivity).
      rewrite E1. cbn [length]. lia. }
    rewrite En.
    rewrite (placement_many _ s1 (s_next_la s)); [|lia|reflexivity|exact (b_keys _ _ _ _ _ _ _ _ _ I)|].
    - replace (Z.max (s_next_la s) (s_next_la s + Z.of_nat (Z.to_nat (L - s_next_la s + 1)) - 1)) with (Z.max 1 L) by lia.
      reflexivity.
    - intros x Hx. subst s1. cbn [set_input s_forced]. rewrite (b_forced _ _ _ _ _ _ _ _ _ I) by lia.
      destruct (Z.ltb_spec x (s_frame_count s)); [apply andb_true_r|lia]. }
  rewrite E. clear E.
  destruct (compute_invariants_total (ci_fuel s2) s2 fl lo e o ds I2 HBo) as (s' & o' & ds' & F1 & F2 & F3 & F4 & F5 & F6 & F7 & F8).
  - right. reflexivity.
  - unfold ci_fuel. assert (0 <= s_frame_count s2) by (cbn; lia). lia.
  - exists s'. split; [exact F1|]. assert (Hf2 : s_flushing s2 = true) by reflexivity. split.
    + exists fl, lo, o', ds'. split; [exact F2|]. split; [intros X; congruence|]. split; [intros _; apply F7; reflexivity|].
      intros X; congruence.
    + split; [congruence|]. rewrite F5. exact HL.
Qed.
End Step.
