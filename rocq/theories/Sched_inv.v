(** Every reachable state of the encoder front end holds a window of the coding
    plan: the invariant and its preservation by frame construction
    (build_frame_properties, the lookahead passes). *)
From Verif Require Import Base SMap Sched_model Sched_plan.

(** ** Contiguous maps of optional data, indexed by [nat] *)
Definition dat {A} (lo : Z) (ds : list (option A)) (i : nat) : option A :=
  nth (Z.to_nat (Z.of_nat i - lo)) ds None.

Lemma dat_get A lo (ds : list (option A)) i : lo <= Z.of_nat i < lo + zlen ds ->
  get (Z.of_nat i) (zmap lo ds) = Some (dat lo ds i).
Proof.
  intros H. rewrite zmap_get by lia. unfold dat. apply nth_error_nth'. unfold zlen in H. lia.
Qed.
Lemma dat_app1 A lo (ds x : list (option A)) i : lo <= Z.of_nat i < lo + zlen ds -> dat lo (ds ++ x) i = dat lo ds i.
Proof. intros H. unfold dat. apply app_nth1. unfold zlen in H. lia. Qed.
Lemma dat_last A lo (ds : list (option A)) x i : Z.of_nat i = lo + zlen ds -> dat lo (ds ++ [x]) i = x.
Proof.
  intros H. unfold dat. rewrite H. replace (Z.to_nat (lo + zlen ds - lo)) with (length ds) by (unfold zlen; lia).
  apply nth_middle.
Qed.
Lemma dat_cons A lo (ds : list (option A)) x i : lo < Z.of_nat i -> dat lo (x :: ds) i = dat (lo + 1) ds i.
Proof.
  intros H. unfold dat. replace (Z.to_nat (Z.of_nat i - lo)) with (S (Z.to_nat (Z.of_nat i - (lo + 1)))) by lia.
  reflexivity.
Qed.
Lemma dat_set A lo (ds : list (option A)) k x i : lo <= Z.of_nat k < lo + zlen ds -> lo <= Z.of_nat i ->
  dat lo (set_nth (Z.to_nat (Z.of_nat k - lo)) x ds) i = if (i =? k)%nat then x else dat lo ds i.
Proof.
  intros Hk Hi. unfold dat. destruct (Nat.eqb_spec i k) as [->|Hn].
  - apply nth_set_nth_eq. unfold zlen in Hk. lia.
  - apply nth_set_nth_ne. lia.
Qed.

(** Searching. *)
Lemma find_zmap A (p : Z * option A -> bool) (ds : list (option A)) : forall lo : nat,
  match find p (zmap (Z.of_nat lo) ds) with
  | Some (k, x) => exists i : nat, k = Z.of_nat i /\ (lo <= i < lo + length ds)%nat /\ x = dat (Z.of_nat lo) ds i /\
      p (k, x) = true /\ (forall m : nat, (lo <= m < i)%nat -> p (Z.of_nat m, dat (Z.of_nat lo) ds m) = false)
  | None => forall m : nat, (lo <= m < lo + length ds)%nat -> p (Z.of_nat m, dat (Z.of_nat lo) ds m) = false
  end.
Proof.
  induction ds as [|x r IH]; intros lo; cbn [zmap find length]; [intros; lia|].
  destruct (p (Z.of_nat lo, x)) eqn:E.
  - exists lo. split; [reflexivity|]. split; [lia|]. unfold dat. rewrite Z.sub_diag. cbn.
    split; [reflexivity|]. split; [exact E|]. intros; lia.
  - specialize (IH (S lo)). replace (Z.of_nat (S lo)) with (Z.of_nat lo + 1) in IH by lia.
    assert (H0 : p (Z.of_nat lo, dat (Z.of_nat lo) (x :: r) lo) = false).
    { unfold dat. rewrite Z.sub_diag. exact E. }
    destruct (find p (zmap (Z.of_nat lo + 1) r)) as [[k y]|].
    + destruct IH as (i & -> & Hi & -> & Hp & Hm). exists i. split; [reflexivity|]. split; [lia|].
      split; [rewrite dat_cons by lia; reflexivity|]. split; [exact Hp|].
      intros m Hm0. destruct (Nat.eq_dec m lo) as [->|]; [exact H0|]. rewrite dat_cons by lia. apply Hm. lia.
    + intros m Hm. destruct (Nat.eq_dec m lo) as [->|]; [exact H0|]. rewrite dat_cons by lia. apply IH. lia.
Qed.
Lemma rfind_zmap A (p : Z * option A -> bool) (ds : list (option A)) lo : 0 <= lo ->
  match rfind_entry p (zmap lo ds) with
  | Some (k, x) => exists i : nat, k = Z.of_nat i /\ lo <= Z.of_nat i < lo + zlen ds /\ x = dat lo ds i /\
      p (k, x) = true /\ (forall m : nat, (i < m)%nat -> Z.of_nat m < lo + zlen ds -> p (Z.of_nat m, dat lo ds m) = false)
  | None => forall m : nat, lo <= Z.of_nat m < lo + zlen ds -> p (Z.of_nat m, dat lo ds m) = false
  end.
Proof.
  intros Hlo. unfold rfind_entry. induction ds as [|x r IH] using rev_ind.
  - cbn. intros m Hm. lia.
  - rewrite zmap_app, rev_app_distr. cbn [zmap rev app find]. rewrite zlen_app, zlen_cons, zlen_nil.
    assert (Hr := zlen_nonneg _ r).
    destruct (p (lo + zlen r, x)) eqn:E.
    + exists (Z.to_nat (lo + zlen r)). split; [lia|]. split; [lia|].
      split; [symmetry; apply dat_last; lia|]. split; [exact E|]. intros; lia.
    + assert (HM : forall m : nat, Z.of_nat m = lo + zlen r -> p (Z.of_nat m, dat lo (r ++ [x]) m) = false).
      { intros m Hm. rewrite dat_last by exact Hm. rewrite Hm. exact E. }
      destruct (find p (rev (zmap lo r))) as [[k y]|].
      * destruct IH as (i & -> & Hi & -> & Hp & Hm). exists i. split; [reflexivity|]. split; [lia|].
        split; [rewrite dat_app1 by lia; reflexivity|]. split; [exact Hp|].
        intros m H1 H2. destruct (Z.eq_dec (Z.of_nat m) (lo + zlen r)); [apply HM; assumption|].
        rewrite dat_app1 by lia. apply Hm; lia.
      * intros m Hm. destruct (Z.eq_dec (Z.of_nat m) (lo + zlen r)); [apply HM; assumption|].
        rewrite dat_app1 by lia. apply IH. lia.
Qed.

Lemma below_all A (m : smap A) k : (forall kv, In kv m -> fst kv < k) -> below_key k m = m.
Proof. intros H. apply filter_all. intros x Hx. specialize (H x Hx). lia. Qed.

Lemma get_order_hint_eq' c j : 0 <= hintz c j < 2 ^ 32 -> get_order_hint c j (get_idx c j) = hintz c j.
Proof. apply get_order_hint_eq. Qed.

(** ** The parameters of a run *)
Definition par (ps : list (option params)) (n : Z) : option params :=
  match nth_error ps (Z.to_nat n) with Some p => p | None => None end.
Definition forcedf ps n : bool := match par ps n with Some p => pr_key p | None => false end.
Definition t35f ps n : list Z := match par ps n with Some p => pr_t35 p | None => [] end.
Definition opqf ps n : option Z := match par ps n with Some p => pr_opaque p | None => None end.
Definition keyf (scene : Z -> bool) ps n : bool := forcedf ps n || scene n.

Definition cfg_ok (c : config) : Prop :=
  1 <= cf_max_kf c /\ 1 <= cf_rdo_la c /\ 0 <= cf_switch_interval c /\
  (0 < cf_switch_interval c -> cf_low_latency c = true).

Section Inv.
Variable c : config.
Variable scene : Z -> bool.
Variable ps : list (option params).
Hypothesis Hc : cfg_ok c.
Hypothesis Hps : zlen ps < 2 ^ 31.

Notation iskey := (keyf scene ps).
Notation L := (zlen ps).
Notation t35s := (t35f ps).
Notation opq := (opqf ps).
Notation gstart := (gstart c iskey).
Notation ends := (ends c iskey L).
Notation nkf := (nkf c iskey L).
Notation pos := (pos c iskey L).
Notation ppos := (ppos c iskey L).
Notation pre := (pre c iskey L).
Notation taken := (taken c iskey L).
Notation ts := (ts c iskey L t35s).
Notation entry := (entry c iskey L t35s).
Notation coded := (coded c iskey L t35s).
Notation sb := (sb c iskey L).
Notation real := (real c iskey L t35s).
Notation src := (src c iskey L t35s).
Notation dpb := (dpb c iskey L t35s).
Notation pending := (pending c iskey L t35s).
Notation packets := (packets c iskey L t35s opq).
Notation packet_of := (packet_of c iskey L t35s opq).
Notation frame_obus := (frame_obus c iskey L t35s).
Notation frame_pic := (frame_pic c iskey L t35s).
Notation IL := (ic_in_len c).
Notation OL := (ic_out_len c).

Let Hkf : 1 <= cf_max_kf c := proj1 Hc.

(** No coded frame in [e, i). *)
Definition nocoded (e i : nat) : Prop := forall k, (e <= k < i)%nat -> coded k = false.

(** The data of output frame [i] when [e] is the next frame to emit. *)
Definition data_ok (e i : nat) (x : option fdata) : Prop :=
  match entry i, x with
  | None, None => True
  | Some fi, Some d =>
      fd_fi d = fi /\ (fi_sef fi = false -> fd_la d = src (S i)) /\
      ((e <= i)%nat ->
         fd_out d = None /\
         (is_key (fi_type fi) = true -> fd_rec d = no_slots) /\
         (is_key (fi_type fi) = false ->
            (nocoded e i -> fd_rec d = real i /\ fd_bias d = sign_bias c (real i) (fi_refs fi) (fi_hint fi)) /\
            (fi_sef fi = false -> fd_rec d = real i \/ fd_rec d = src i)))
  | _, _ => False
  end.

Record InvB (s : st) (fl lo : Z) (e o : nat) (ds : list (option fdata)) : Prop := {
  b_fc : 0 <= s_frame_count s <= L;
  b_lim : s_limit s = if s_flushing s then Some L else None;
  b_flk : s_flushing s = true -> s_frame_count s = L;
  b_q : s_frame_q s = zmap fl (repeat true (Z.to_nat (s_frame_count s - fl)) ++ (if s_flushing s then [false] else []));
  b_fl : 0 <= fl <= s_frame_count s /\ fl <= sb e /\ (fl = s_frame_count s -> fl = 0) /\ fl < s_next_la s;
  b_la : s_next_la s = if s_flushing s then Z.max 1 L else Z.max 1 (s_frame_count s - 1 - kf_lookahead c);
  b_keys : s_keyframes s = 0 :: filter iskey (zseq 1 (Z.to_nat (s_next_la s - 1)));
  b_forced : forall n, 0 <= n -> sin n (s_forced s) = forcedf ps n && (n <? s_frame_count s);
  b_opq : forall n, sb e <= n -> get n (s_opaque s) = if n <? s_frame_count s then opq n else None;
  b_t35 : forall n, 0 <= n -> (match get n (s_t35 s) with Some t => t | None => [] end) =
                              if taken o n then [] else if n <? s_frame_count s then t35s n else [];
  b_gop : forall i, lo <= Z.of_nat i -> (i < o)%nat ->
            get (Z.of_nat i) (s_gop_out s) = Some (fst (pos i)) /\ get (Z.of_nat i) (s_gop_in s) = Some (snd (pos i));
  b_data : s_data s = zmap lo ds;
  b_len : lo + zlen ds = Z.of_nat o;
  b_dat : forall i, lo <= Z.of_nat i -> (i < o)%nat -> data_ok e i (dat lo ds i);
  b_lo : 0 <= lo <= Z.of_nat e /\ (e <= o)%nat;
  b_out : s_out s = Z.of_nat e;
  b_o : s_next_la_out s = Z.of_nat o;
  b_proc : s_processed s = sb e;
  b_valid : forall i, (i < o)%nat -> snd (pos i) < L;
  b_bound : forall i, (i < o)%nat -> Z.of_nat i <= 6 * s_frame_count s + 6;
  b_seen : forall i fi, (i < o)%nat -> entry i = Some fi -> fi_input fi < s_next_la s;
  b_pre : s_flushing s = false -> forall i, (i < o)%nat -> pre i < s_frame_count s;
  b_pkt : s_packet_data s = pending e }.

(** Frames can be built safely: nothing yet, or a coded frame is waiting. *)
Definition HB (e o : nat) : Prop := (o = 0%nat /\ e = 0%nat) \/ exists i, (e <= i < o)%nat /\ coded i = true.

(** ** Reading the state *)
Lemma has_frame_eq s fl lo e o ds n : InvB s fl lo e o ds -> 0 <= n ->
  has_frame s n = (fl <=? n) && (n <? s_frame_count s).
Proof.
  intros I Hn. unfold has_frame. rewrite (b_q _ _ _ _ _ _ I).
  pose proof (b_fl _ _ _ _ _ _ I) as (Hfl & _).
  destruct (Z.leb_spec fl n) as [H|H]; [|rewrite zmap_get_low by lia; reflexivity].
  rewrite zmap_get by lia. cbn [andb].
  destruct (Z.ltb_spec n (s_frame_count s)) as [H2|H2].
  - rewrite nth_error_app1 by (rewrite repeat_length; lia). rewrite nth_error_repeat by lia. reflexivity.
  - rewrite nth_error_app2 by (rewrite repeat_length; lia). rewrite repeat_length.
    destruct (s_flushing s).
    + destruct (Z.to_nat (n - fl) - Z.to_nat (s_frame_count s - fl))%nat as [|m]; cbn; [reflexivity|].
      destruct m; reflexivity.
    + destruct (_ - _)%nat; reflexivity.
Qed.

Lemma last_q s fl lo e o ds : InvB s fl lo e o ds -> 1 <= s_frame_count s \/ s_flushing s = true ->
  last_key (s_frame_q s) = Some (if s_flushing s then s_frame_count s else s_frame_count s - 1).
Proof.
  intros I H. rewrite (b_q _ _ _ _ _ _ I). pose proof (b_fl _ _ _ _ _ _ I) as (Hfl & _ & Hf0 & _).
  rewrite zmap_last_key.
  - rewrite zlen_app, zlen_repeat. destruct (s_flushing s); rewrite ?zlen_cons, ?zlen_nil; f_equal; lia.
  - destruct (s_flushing s); [destruct (repeat _ _); discriminate|]. destruct H as [H|H]; [|discriminate].
    assert (E : exists m, Z.to_nat (s_frame_count s - fl) = S m) by (exists (Z.to_nat (s_frame_count s - fl - 1)); lia).
    destruct E as [m ->]. discriminate.
Qed.

(** needs_more_frame_q_lookahead on an invariant state *)
Lemma needs_more_eq s fl lo e o ds n : InvB s fl lo e o ds -> 1 <= s_frame_count s \/ s_flushing s = true ->
  needs_more_q c s n = if s_flushing s then false else (s_frame_count s - 1 <? n + kf_lookahead c + 1).
Proof.
  intros I H. unfold needs_more_q. rewrite (last_q _ _ _ _ _ _ I H). unfold needs_more_frames.
  rewrite (b_lim _ _ _ _ _ _ I). destruct (s_flushing s) eqn:E; [|apply andb_true_r].
  rewrite (b_flk _ _ _ _ _ _ I E). rewrite Z.ltb_irrefl. apply andb_false_r.
Qed.

(** Known numbers: below the lookahead frontier, or everything when flushing. *)
Definition known (s : st) (n : Z) : Prop := s_flushing s = true \/ n < s_next_la s.

Lemma find_key (gs n : Z) m : forall lo,
  match find (fun k => gs <? k) (filter iskey (zseq lo m)) with
  | Some k => (k <=? n) = true <-> exists x, lo <= x < lo + Z.of_nat m /\ iskey x = true /\ gs < x <= n
  | None => ~ exists x, lo <= x < lo + Z.of_nat m /\ iskey x = true /\ gs < x <= n
  end.
Proof.
  induction m as [|m IH]; intros lo; cbn [zseq filter find].
  - intros (x & H & _). lia.
  - destruct (iskey lo) eqn:E.
    + cbn [find]. destruct (Z.ltb_spec gs lo) as [H|H].
      * split; [intros Hn; exists lo; repeat split; try lia; exact E|].
        intros (x & H1 & H2 & H3). lia.
      * specialize (IH (lo + 1)). destruct (find _ _) as [k|].
        -- rewrite IH. split; intros (x & H1 & H2 & H3); exists x; (split; [lia|]); split; auto; lia.
        -- intros (x & H1 & H2 & H3). apply IH. exists x. split; [lia|]. split; auto.
    + specialize (IH (lo + 1)). destruct (find _ _) as [k|].
      * rewrite IH. split; intros (x & H1 & H2 & H3); exists x; (split; [|split; auto]); try lia.
        assert (x <> lo) by congruence. lia.
      * intros (x & H1 & H2 & H3). apply IH. exists x. split; [|split; auto]. assert (x <> lo) by congruence. lia.
Qed.

Lemma ends_iff gs n : 0 <= gs <= n -> gstart gs = gs ->
  ends gs n = true <-> (L <= n \/ gs + cf_max_kf c <= n \/ exists x, gs < x <= n /\ iskey x = true).
Proof.
  intros Hn Hg. unfold Sched_plan.ends. rewrite orb_true_iff, negb_true_iff, Z.leb_le, Z.eqb_neq. split.
  - intros [H|H]; [left; exact H|]. right.
    destruct (Z_le_gt_dec (gs + cf_max_kf c) n) as [Hm|Hm]; [left; exact Hm|right].
    destruct (existsb iskey (zseq (gs + 1) (Z.to_nat (n - gs)))) eqn:E.
    + apply existsb_exists in E. destruct E as (x & Hx & Hk). apply in_zseq in Hx. exists x. split; [lia|exact Hk].
    + exfalso. apply H. apply gstart_stays; try lia.
      intros m Hm0. destruct (iskey m) eqn:Em; [|reflexivity].
      assert (existsb iskey (zseq (gs + 1) (Z.to_nat (n - gs))) = true); [|congruence].
      apply existsb_exists. exists m. split; [apply in_zseq; lia|exact Em].
  - intros [H|[H|(x & Hx & Hk)]]; [left; exact H|right|right]; intros E.
    + pose proof (gstart_window c iskey Hkf n ltac:(lia)). lia.
    + pose proof (gstart_nokey c iskey n ltac:(lia) x ltac:(lia)). congruence.
Qed.

Lemma next_kf_le s fl lo e o ds gs n : InvB s fl lo e o ds ->
  0 <= gs < n -> gstart gs = gs -> known s n -> n < L \/ s_flushing s = true ->
  (next_kf c s gs <=? n) = ends gs n.
Proof.
  intros I Hn Hg Hk HnL. apply Bool.eq_iff_eq_true. rewrite ends_iff by (try lia; exact Hg).
  unfold next_kf. rewrite (b_keys _ _ _ _ _ _ I), (b_lim _ _ _ _ _ _ I). cbn [find].
  destruct (Z.ltb_spec gs 0); [lia|].
  assert (F := find_key gs n (Z.to_nat (s_next_la s - 1)) 1).
  assert (Hla := b_la _ _ _ _ _ _ I). pose proof (b_fc _ _ _ _ _ _ I) as Hfc.
  assert (Hla1 : 1 <= s_next_la s) by (destruct (s_flushing s); lia).
  assert (X : (exists x, 1 <= x < 1 + Z.of_nat (Z.to_nat (s_next_la s - 1)) /\ iskey x = true /\ gs < x <= n) ->
              exists x, gs < x <= n /\ iskey x = true).
  { intros (x & H1 & H2 & H3). exists x. auto. }
  assert (Y : (exists x, gs < x <= n /\ iskey x = true) -> L <= n \/
              exists x, 1 <= x < 1 + Z.of_nat (Z.to_nat (s_next_la s - 1)) /\ iskey x = true /\ gs < x <= n).
  { intros (x & H1 & H2). destruct (Z_le_gt_dec L n) as [|HnL2]; [left; assumption|right]. exists x.
    split; [|auto]. assert (x < s_next_la s); [|lia]. destruct Hk as [Hk|Hk]; [|lia].
    rewrite Hk in Hla. lia. }
  destruct (find _ _) as [k|]; destruct (s_flushing s) eqn:Ef.
  - rewrite Z.leb_le in *. rewrite !Z.min_le_iff. rewrite F. split.
    + intros [H1|[H1|H1]]; auto.
    + intros [H1|[H1|H1]]; auto. destruct (Y H1); auto.
  - rewrite Z.leb_le in *. rewrite !Z.min_le_iff. rewrite F.
    assert (n < L) by (destruct HnL; [assumption|discriminate]). split.
    + intros [H1|H1]; auto.
    + intros [H1|[H1|H1]]; [lia|auto|]. destruct (Y H1); [lia|auto].
  - rewrite Z.leb_le. rewrite !Z.min_le_iff. split.
    + intros [H1|H1]; auto.
    + intros [H1|[H1|H1]]; auto. destruct (Y H1); [auto|contradiction].
  - rewrite Z.leb_le. assert (n < L) by (destruct HnL; [assumption|discriminate]). split.
    + auto.
    + intros [H1|[H1|H1]]; [lia|auto|]. destruct (Y H1); [lia|contradiction].
Qed.

(** The next key frame is exact as soon as it is known to be reached. *)
Lemma next_kf_eq s fl lo e o ds gs n : InvB s fl lo e o ds ->
  0 <= gs < n -> gs < L -> gstart gs = gs -> known s n -> n < L \/ s_flushing s = true -> ends gs n = true ->
  next_kf c s gs = nkf gs.
Proof.
  intros I Hn HgL Hg Hk HnL He.
  destruct (nkf_spec c iskey L gs ltac:(lia) Hg) as [H5 H6].
  assert (Hle := He). rewrite H6 in Hle by lia.
  assert (K : forall m, m <= n -> known s m /\ (m < L \/ s_flushing s = true)).
  { intros m Hm. split; [destruct Hk; [left; assumption|right; lia]|destruct HnL; [left; lia|right; assumption]]. }
  assert (Hgt : gs < next_kf c s gs).
  { unfold next_kf. rewrite (b_keys _ _ _ _ _ _ I), (b_lim _ _ _ _ _ _ I). cbn [find].
    destruct (Z.ltb_spec gs 0); [lia|].
    assert (gs < (if s_flushing s then Z.min (gs + cf_max_kf c) L else gs + cf_max_kf c)) by (destruct (s_flushing s); lia).
    destruct (find _ _) as [k|] eqn:F; [apply find_some in F; destruct F as [_ F]|];
      destruct (s_flushing s); lia. }
  assert (A : next_kf c s gs <= n).
  { apply Z.leb_le. rewrite (next_kf_le _ _ _ _ _ _ gs n I); auto. }
  assert (B : next_kf c s gs <= nkf gs).
  { destruct (K (nkf gs) ltac:(lia)) as [K1 K2]. apply Z.leb_le. rewrite (next_kf_le _ _ _ _ _ _ gs _ I); auto; [|lia].
    rewrite H6 by lia. apply Z.leb_refl. }
  assert (C : nkf gs <= next_kf c s gs).
  { destruct (K (next_kf c s gs) A) as [K1 K2]. apply Z.leb_le. rewrite <- H6 by lia.
    rewrite <- (next_kf_le _ _ _ _ _ _ gs _ I); auto; [apply Z.leb_refl|lia]. }
  lia.
Qed.

(** Key membership below the frontier. *)
Lemma sin_keys s fl lo e o ds n : InvB s fl lo e o ds -> 0 <= n ->
  sin n (s_keyframes s) = (n =? 0) || (iskey n && (1 <=? n) && (n <? s_next_la s)).
Proof.
  intros I Hn. apply Bool.eq_iff_eq_true. rewrite sin_in, (b_keys _ _ _ _ _ _ I). cbn [In].
  rewrite filter_In, in_zseq, !orb_true_iff, !andb_true_iff.
  assert (1 <= s_next_la s). { rewrite (b_la _ _ _ _ _ _ I). destruct (s_flushing s); lia. }
  split; [intros [H1|[H1 H2]]|intros [H1|[[H1 H2] H3]]]; lia || (right; split; [lia|assumption]) || (right; repeat split; [assumption|lia|lia]) || (left; lia).
Qed.

(** ** Previous frames *)
Lemma data_bounds s fl lo e o ds : InvB s fl lo e o ds -> forall kv, In kv (s_data s) -> fst kv < Z.of_nat o.
Proof.
  intros I kv Hin. rewrite (b_data _ _ _ _ _ _ I) in Hin. apply zmap_keys in Hin.
  pose proof (b_len _ _ _ _ _ _ I). lia.
Qed.

Lemma data_ok_some e i d : data_ok e i (Some d) -> entry i = Some (fd_fi d).
Proof. unfold data_ok. destruct (entry i); [|contradiction]. intros (<- & _). reflexivity. Qed.
Lemma data_ok_none e i : data_ok e i None -> entry i = None.
Proof. unfold data_ok. destruct (entry i); [contradiction|reflexivity]. Qed.

Lemma prev_coded s fl lo e o ds : InvB s fl lo e o ds -> (exists i, (e <= i < o)%nat /\ coded i = true) ->
  exists p d, previous_coded_fi s (Z.of_nat o) = Some d /\ (e <= p < o)%nat /\ dat lo ds p = Some d /\
    fi_sef (fd_fi d) = false /\ nocoded (S p) o.
Proof.
  intros I (i0 & Hi0 & Hcd). unfold previous_coded_fi.
  rewrite below_all by (apply (data_bounds _ _ _ _ _ _ I)). rewrite (b_data _ _ _ _ _ _ I).
  pose proof (b_lo _ _ _ _ _ _ I) as (Hlo & Heo). pose proof (b_len _ _ _ _ _ _ I) as Hlen.
  set (p := fun kd : Z * option fdata => match snd kd with Some d => negb (fi_sef (fd_fi d)) | None => false end).
  assert (PC : forall m : nat, lo <= Z.of_nat m -> (m < o)%nat -> p (Z.of_nat m, dat lo ds m) = coded m).
  { intros m H1 H2. assert (D := b_dat _ _ _ _ _ _ I m H1 H2). unfold p, Sched_plan.coded. cbn [snd].
    destruct (dat lo ds m) as [d|].
    - rewrite (data_ok_some _ _ _ D). reflexivity.
    - rewrite (data_ok_none _ _ D). reflexivity. }
  assert (R := rfind_zmap _ p ds lo ltac:(lia)).
  destruct (rfind_entry p (zmap lo ds)) as [[k x]|].
  - destruct R as (i & -> & Hi & -> & Hp & Hm). destruct (dat lo ds i) as [d|] eqn:Ed; [|discriminate].
    exists i, d. split; [reflexivity|].
    assert ((e <= i)%nat).
    { destruct (Nat.le_gt_cases e i) as [|Hlt]; [assumption|]. exfalso.
      assert (F := Hm i0 ltac:(lia) ltac:(lia)). rewrite PC in F by lia. congruence. }
    split; [lia|]. split; [exact Ed|]. split; [unfold p in Hp; cbn in Hp; destruct (fi_sef _); [discriminate|reflexivity]|].
    intros m Hm0. rewrite <- PC by lia. apply Hm; lia.
  - exfalso. assert (F := R i0 ltac:(lia)). rewrite PC in F by lia. congruence.
Qed.

Lemma lst_of p o fi : (p < o)%nat -> entry p = Some fi -> (forall m, (p < m < o)%nat -> entry m = None) ->
  lst c iskey L t35s o = fi_input fi.
Proof.
  intros Hp He Hm. induction o as [|o IH]; [lia|]. cbn [lst].
  destruct (Nat.eq_dec p o) as [->|]; [rewrite He; reflexivity|].
  rewrite (Hm o) by lia. apply IH; [lia|]. intros m Hm0. apply Hm. lia.
Qed.

Lemma prev_any s fl lo e o ds : InvB s fl lo e o ds -> (exists i, (e <= i < o)%nat /\ coded i = true) ->
  exists d, previous_fi s (Z.of_nat o) = Some d /\ fi_input (fd_fi d) = lst c iskey L t35s o.
Proof.
  intros I (i0 & Hi0 & Hcd). unfold previous_fi.
  rewrite below_all by (apply (data_bounds _ _ _ _ _ _ I)). rewrite (b_data _ _ _ _ _ _ I).
  pose proof (b_lo _ _ _ _ _ _ I) as (Hlo & Heo). pose proof (b_len _ _ _ _ _ _ I) as Hlen.
  set (p := fun kd : Z * option fdata => match snd kd with Some _ => true | None => false end).
  assert (PC : forall m : nat, lo <= Z.of_nat m -> (m < o)%nat -> p (Z.of_nat m, dat lo ds m) = false -> entry m = None).
  { intros m H1 H2. assert (D := b_dat _ _ _ _ _ _ I m H1 H2). unfold p. cbn [snd].
    destruct (dat lo ds m) as [d|]; [discriminate|]. intros _. apply (data_ok_none _ _ D). }
  assert (R := rfind_zmap _ p ds lo ltac:(lia)).
  destruct (rfind_entry p (zmap lo ds)) as [[k x]|].
  - destruct R as (i & -> & Hi & -> & Hp & Hm). destruct (dat lo ds i) as [d|] eqn:Ed; [|discriminate].
    exists d. split; [reflexivity|].
    assert (D := b_dat _ _ _ _ _ _ I i ltac:(lia) ltac:(lia)). rewrite Ed in D.
    symmetry. apply (lst_of i); [lia|exact (data_ok_some _ _ _ D)|].
    intros m Hm0. apply PC; [lia|lia|]. apply Hm; lia.
  - exfalso. assert (F := R i0 ltac:(lia)). assert (G := PC i0 ltac:(lia) ltac:(lia) F).
    unfold Sched_plan.coded in Hcd. rewrite G in Hcd. discriminate.
Qed.

(** ** Reference slots *)
Lemma refresh_from_length flags r s : forall i, length (refresh_from i flags r s) = length s.
Proof. induction s as [|x s IH]; intros i; cbn; [reflexivity|]. rewrite IH. reflexivity. Qed.
Lemma dpb_length mk i : length (dpb mk i) = 8%nat.
Proof.
  induction i as [|i IH]; [reflexivity|]. cbn [Sched_plan.dpb].
  destruct (entry i) as [fi|]; [|exact IH]. destruct (fi_sef fi); [exact IH|].
  unfold refresh. rewrite refresh_from_length. exact IH.
Qed.
Lemma refresh_all r s : length s = 8%nat -> refresh 255 r s = repeat (Some r) 8.
Proof.
  intros H. do 8 (destruct s as [|? s]; [discriminate|]). destruct s; [reflexivity|discriminate].
Qed.
Lemma dpb_nocoded mk p o : (p <= o)%nat -> nocoded p o -> dpb mk o = dpb mk p.
Proof.
  induction 1 as [|o Hp IH]; [reflexivity|]. intros H. cbn [Sched_plan.dpb].
  assert (E := H o ltac:(lia)). unfold Sched_plan.coded in E.
  assert (IH' : dpb mk o = dpb mk p) by (apply IH; intros k Hk; apply H; lia).
  destruct (entry o) as [fi|]; [|exact IH']. destruct (fi_sef fi); [exact IH'|discriminate].
Qed.

(** Sign biases depend only on the order hints, which do not depend on the kind
    of picture stored. *)
Lemma refresh_from_hints flags r r' : rf_hint r = rf_hint r' -> forall s s' i,
  map (option_map rf_hint) s = map (option_map rf_hint) s' ->
  map (option_map rf_hint) (refresh_from i flags r s) = map (option_map rf_hint) (refresh_from i flags r' s').
Proof.
  intros Hr. induction s as [|x s IH]; intros [|x' s'] i H; cbn in *; try discriminate; [reflexivity|].
  injection H as H1 H2. rewrite (IH s' (i + 1) H2). f_equal. destruct (Z.testbit flags i); cbn; [|exact H1].
  rewrite Hr. reflexivity.
Qed.
Lemma dpb_hints mk mk' i : map (option_map rf_hint) (dpb mk i) = map (option_map rf_hint) (dpb mk' i).
Proof.
  induction i as [|i IH]; [reflexivity|]. cbn [Sched_plan.dpb].
  destruct (entry i) as [fi|]; [|exact IH]. destruct (fi_sef fi); [exact IH|].
  apply refresh_from_hints; [reflexivity|exact IH].
Qed.

(** ** Building one frame *)
Definition upd (s : st) go gi t d la_o : st :=
  St (s_frame_count s) (s_limit s) (s_out s) (s_processed s) (s_frame_q s) d (s_keyframes s) (s_forced s)
     (s_packet_data s) go gi (s_next_la s) la_o (s_opaque s) t (s_flushing s).

Lemma hint_bound_pre i : snd (pos i) < L -> 0 <= hintz c (Z.of_nat (S i) - fst (pos i)) < 2 ^ 32.
Proof.
  intros H1. destruct (pos_facts c iskey L i) as (Hgo & Hgs & H). destruct (H H1) as (Hg & Hgo6 & Hrm).
  set (j := Z.of_nat (S i) - fst (pos i)) in *. assert (Hj : 1 <= j) by lia.
  assert (H3 := hintz_lb c iskey j Hj). assert (H4 := hintz_ub c iskey j Hj). assert (H6 := ILg c iskey j Hj).
  destruct (nkf_spec c iskey L (snd (pos i)) ltac:(lia) Hg) as [H5 _].
  assert (G0 := gidx_nonneg c iskey j Hj).
  destruct (Z.eq_dec j 1) as [E|E].
  - rewrite E in *. destruct (step_first c) as [_ E2]. rewrite E2 in *.
    destruct (cases_mode c) as [(_ & _ & E3 & _)|(_ & _ & E3 & _)]; rewrite E3 in *; lia.
  - assert (Hp : 1 <= Z.of_nat i - fst (pos i)) by lia. specialize (Hrm Hp).
    assert (Ej : j = Z.of_nat i - fst (pos i) + 1) by lia.
    assert (gidx c j <= gidx c (Z.of_nat i - fst (pos i)) + 1).
    { assert (Hr := ridx_range c iskey (Z.of_nat i - fst (pos i))).
      destruct (Z.eq_dec (ridx c (Z.of_nat i - fst (pos i)) + 1) OL) as [E2|E2].
      - destruct (step_next c iskey _ Hp E2) as [_ E3]. rewrite Ej, E3. lia.
      - destruct (step_same c iskey _ Hp ltac:(lia)) as [_ E3]. rewrite Ej, E3. lia. }
    destruct (cases_mode c) as [(_ & _ & E3 & _)|(_ & _ & E3 & _)]; rewrite E3 in *; lia.
Qed.

(** The data created for output frame [o], before the lookahead pass. *)
Definition new_ok (hf : Z -> bool) (la : Z) (o : nat) (x : option fdata) : Prop :=
  match entry o, x with
  | None, None => True
  | Some fi, Some d =>
      hf (fi_input fi) = true /\ fi_input fi < la /\ fd_fi d = fi /\ fd_out d = None /\
      (is_key (fi_type fi) = true -> fd_rec d = no_slots /\ fd_la d = no_slots) /\
      (is_key (fi_type fi) = false -> fi_sef fi = false -> fd_la d = src o)
  | _, _ => False
  end.
Definition gops_same (s : st) (o : nat) (go gi : smap Z) : Prop :=
  forall k, k <> Z.of_nat o -> get k go = get k (s_gop_out s) /\ get k gi = get k (s_gop_in s).

Lemma inter_not_key gs j t : is_key (fi_type (inter_info c gs j t)) = false.
Proof. cbn. destruct ((0 <? _) && _ && _); reflexivity. Qed.

Ltac sgop := cbn [s_gop_out s_gop_in s_t35 set_gops set_t35 set_data].
Ltac gops := let k := fresh "k" in let H := fresh "Hk" in intros k H; sgop; rewrite !get_put_other by exact H; split; reflexivity.

Lemma build_cases s fl lo e o ds : InvB s fl lo e o ds -> HB e o ->
  1 <= s_frame_count s \/ s_flushing s = true ->
  (exists go gi t, set_frame_properties c s (Z.of_nat o) = Some (upd s go gi t (s_data s) (s_next_la_out s), false) /\
     gops_same s o go gi /\ (t = s_t35 s \/ (t = del (pre o) (s_t35 s) /\ s_frame_count s <= pre o)) /\
     (s_flushing s = true -> L <= snd (pos o)) /\
     (s_flushing s = false -> s_frame_count s - 1 < pre o + kf_lookahead c + 1)) \/
  (exists go gi x, set_frame_properties c s (Z.of_nat o) =
       Some (upd s go gi (del (pre o) (s_t35 s)) (put (Z.of_nat o) x (s_data s)) (s_next_la_out s), true) /\
     gops_same s o go gi /\ get (Z.of_nat o) go = Some (fst (pos o)) /\ get (Z.of_nat o) gi = Some (snd (pos o)) /\
     snd (pos o) < L /\ Z.of_nat o <= 6 * s_frame_count s + 6 /\ (s_flushing s = false -> pre o < s_frame_count s) /\ new_ok (has_frame s) (s_next_la s) o x).
Proof.
  intros I HBo Hfc. pose proof (b_lo _ _ _ _ _ _ I) as (Hlo & Heo).
  pose proof (b_fl _ _ _ _ _ _ I) as (Hfl & Hflsb & _). pose proof (b_fc _ _ _ _ _ _ I) as Hfcr.
  assert (HT : forall n, 0 <= n -> has_frame s n = (fl <=? n) && (n <? s_frame_count s))
    by (intros n Hn; apply (has_frame_eq _ _ _ _ _ _ _ I Hn)).
  assert (T35 : forall n, 0 <= n -> (n < s_frame_count s) -> (match get n (s_t35 s) with Some t => t | None => [] end)
                = if taken o n then [] else t35s n).
  { intros n Hn Hn2. rewrite (b_t35 _ _ _ _ _ _ I n Hn). destruct (Z.ltb_spec n (s_frame_count s)); [reflexivity|lia]. }
  unfold set_frame_properties, build.
  destruct o as [|i].
  - (* the first frame *)
    cbn [Z.of_nat Z.eqb]. change (0 - 0) with 0. change (get_input c 0 0) with 0.
    change (pre 0) with 0. change (pos 0) with (0, 0). cbn [fst snd].
    assert (Esb : sb e = 0). { replace e with 0%nat by lia. reflexivity. }
    change (needs_more_q c (set_gops _ _ s) 0) with (needs_more_q c s 0).
    rewrite (needs_more_eq _ _ _ _ _ _ _ I Hfc).
    destruct (if s_flushing s then false else _) eqn:Enm.
    + left. do 3 eexists. split; [reflexivity|]. split; [|split; [left; reflexivity|split]].
      * gops.
      * intros E. rewrite E in Enm. discriminate.
      * intros E. rewrite E in Enm. lia.
    + cbn [Z.ltb Z.compare]. unfold build_tail.
      change (has_frame (set_t35 _ _) 0) with (has_frame s 0).
      rewrite HT by lia. destruct (Z.leb_spec fl 0); [|lia]. cbn [andb].
      destruct (Z.ltb_spec 0 (s_frame_count s)) as [Hk|Hk]; cbn [negb].
      * change (s_keyframes (set_t35 _ _)) with (s_keyframes s).
        rewrite (sin_keys _ _ _ _ _ _ _ I) by lia. cbn [Z.eqb orb].
        cbn [set_gops s_gop_out s_gop_in set_t35]. rewrite !get_put_same.
        change (0 - 0) with 0. cbn [Z.eqb].
        change (has_frame _ (fi_input (fd_fi (new_key_frame 0 _)))) with (has_frame s 0).
        rewrite HT by lia. destruct (Z.leb_spec fl 0); [|lia]. destruct (Z.ltb_spec 0 (s_frame_count s)); [|lia].
        cbn [andb]. right. do 3 eexists. split; [reflexivity|]. split; [|split; [|split; [|split; [|split; [|split]]]]].
        -- gops.
        -- sgop; apply get_put_same.
        -- sgop; apply get_put_same.
        -- lia.
        -- lia.
        -- intros _. exact Hk.
        -- unfold new_ok. change (entry 0) with (Some (fd_fi (new_key_frame 0 (ts 0)))).
           split.
           { change (has_frame s 0 = true). rewrite HT by lia. destruct (Z.leb_spec fl 0); [|lia].
             destruct (Z.ltb_spec 0 (s_frame_count s)); [reflexivity|lia]. }
           split.
           { change (0 < s_next_la s). rewrite (b_la _ _ _ _ _ _ I). destruct (s_flushing s); lia. }
           cbn. rewrite T35 by lia. unfold Sched_plan.ts. change (pre 0) with 0. cbn.
           split; [reflexivity|]. split; [reflexivity|]. split; [auto|discriminate].
      * left. do 3 eexists. split; [reflexivity|]. split; [|split; [right; split; [reflexivity|lia]|split]].
        -- gops.
        -- intros E. rewrite <- (b_flk _ _ _ _ _ _ I E). lia.
        -- intros E. rewrite E in Hfc. destruct Hfc; [lia|discriminate].
  - (* a later frame *)
    destruct HBo as [(HBo & _)|HBo]; [lia|].
    destruct (Z.eqb_spec (Z.of_nat (S i)) 0) as [|_]; [lia|].
    replace (Z.of_nat (S i) - 1) with (Z.of_nat i) by lia.
    assert (Hloi : lo <= Z.of_nat i) by (destruct HBo as (q & Hq & _); lia).
    destruct (b_gop _ _ _ _ _ _ I i Hloi ltac:(lia)) as [-> ->].
    assert (HLi := b_valid _ _ _ _ _ _ I i ltac:(lia)).
    destruct (pos_facts c iskey L i) as (Hgo & Hgs & HPF). destruct (HPF HLi) as (Hg & Hgo6 & _). clear HPF.
    assert (Hpc := pos_S_cases c iskey L i). cbn zeta in Hpc.
    assert (Hhb := hint_bound_pre i HLi).
    assert (Hpre : pre (S i) = inputz c (snd (pos i)) (Z.of_nat (S i) - fst (pos i))) by reflexivity.
    assert (Hlst := lst_sb c iskey L Hps t35s i HLi). cbn zeta in Hlst.
    assert (Hen : entry (S i) = entry_at c iskey L (snd (pos (S i))) (Z.of_nat (S i) - fst (pos (S i))) (ts (S i))) by reflexivity.
    assert (Hsbe : sb e <= sb (S i)). { apply sb_mono; [exact t35s|exact Heo|]. intros m Hm. apply (b_valid _ _ _ _ _ _ I). lia. }
    assert (HsbS : sb (S i) = sbf c iskey L (snd (pos (S i))) (Z.of_nat (S i) - fst (pos (S i)))) by reflexivity.
    set (go := fst (pos i)) in *. set (gs := snd (pos i)) in *. set (j := Z.of_nat (S i) - go) in *.
    assert (Hj : 1 <= j) by (unfold j; lia).
    destruct (nkf_spec c iskey L gs ltac:(lia) Hg) as [Hnk1 Hnk2].
    rewrite get_input_eq by exact Hhb.
    assert (Hin : inputz c gs j = gs + hintz c j) by (unfold inputz; destruct (Z.eqb_spec j 0); lia).
    rewrite Hpre. set (n := inputz c gs j) in *.
    assert (Hlb := hintz_lb c iskey j Hj). assert (Hub := hintz_ub c iskey j Hj). assert (Hig := ILg c iskey j Hj).
    change (needs_more_q c (set_gops _ _ s) n) with (needs_more_q c s n).
    rewrite (needs_more_eq _ _ _ _ _ _ _ I Hfc).
    destruct (if s_flushing s then false else _) eqn:Enm.
    { left. do 3 eexists. split; [reflexivity|]. split; [|split; [left; reflexivity|split]].
      - gops.
      - intros E. rewrite E in Enm. discriminate.
      - intros E. rewrite E in Enm. lia. }
    assert (Hla := b_la _ _ _ _ _ _ I).
    assert (Hknown : known s n).
    { unfold known. destruct (s_flushing s) eqn:E; [left; reflexivity|right]. lia. }
    assert (HnL : n < L \/ s_flushing s = true).
    { destruct (s_flushing s) eqn:E; [right; reflexivity|left].
      assert (0 <= kf_lookahead c). { unfold kf_lookahead. destruct (cases_mode c) as [(_ & _ & -> & _)|(_ & _ & -> & _)]; lia. }
      lia. }
    assert (Hknf : s_flushing s = false -> n < s_frame_count s).
    { intros E. rewrite E in Enm. assert (0 <= kf_lookahead c).
      { unfold kf_lookahead. destruct (cases_mode c) as [(_ & _ & -> & _)|(_ & _ & -> & _)]; lia. } lia. }
    destruct (Z.ltb_spec 0 j) as [_|]; [|lia].
    change (next_kf c (set_t35 _ _) gs) with (next_kf c s gs).
    change (previous_fi (set_t35 _ _) (Z.of_nat (S i))) with (previous_fi s (Z.of_nat (S i))).
    destruct (prev_any _ _ _ _ _ _ I HBo) as (pd & -> & Hpd).
    rewrite (next_kf_le _ _ _ _ _ _ gs n I) by (auto; lia).
    destruct (ends gs n) eqn:Een.
    + rewrite (next_kf_eq _ _ _ _ _ _ gs n I) by (auto; lia).
      assert (Hadv : (negb (ic_reorder c) || (((j - 1) mod OL =? 0) && (fi_input (fd_fi pd) =? nkf gs - 1)))
                     = adv c iskey L gs j).
      { unfold adv. change ((j - 1) mod OL) with (ridx c j). rewrite Hpd.
        rewrite Hnk2 by lia. rewrite Hnk2 in Een by lia.
        destruct (cases_mode c) as [(E1 & E2 & E3 & E4)|(E1 & E2 & E3 & E4)]; rewrite E1; cbn [negb orb].
        - destruct (Z.eqb_spec (ridx c j) 0) as [E0|E0]; [|reflexivity]. cbn [andb].
          rewrite Hlst by (left; exact E0). unfold sbf. destruct (Z.eqb_spec j 0); [lia|].
          rewrite E0, E2. destruct (Z.leb_spec (nkf gs) (gs + IL * gidx c j + 1)); lia.
        - assert (E0 : ridx c j = 0) by (assert (R := ridx_range c iskey j); lia). rewrite E0. cbn [Z.eqb andb].
          assert (hintz c j = IL * gidx c j + 1) by lia. symmetry. lia. }
      rewrite Hadv. clear Hadv Hlst. destruct (adv c iskey L gs j) eqn:Ea.
      * (* key switch *)
        destruct Hpc as [(_ & Epos)|(Hx & _)]; [|congruence].
        change (has_frame (set_t35 _ _) (nkf gs)) with (has_frame s (nkf gs)).
        assert (Esb : sb (S i) = nkf gs). { rewrite HsbS, Epos. cbn [fst snd]. rewrite Z.sub_diag. reflexivity. }
        assert (H : fl <= nkf gs) by (clear - Hflsb Hsbe Esb; lia).
        rewrite HT by (clear - Hnk1 Hgs; lia). rewrite (proj2 (Z.leb_le _ _) H). cbn [andb].
        rewrite Hnk2 in Een by (clear - Hin Hlb Hig; lia). apply Z.leb_le in Een.
        destruct (Z.ltb_spec (nkf gs) (s_frame_count s)) as [Hk|Hk]; cbn [negb].
        -- unfold build_tail.
           change (has_frame (set_gops _ _ _) (nkf gs)) with (has_frame s (nkf gs)).
           assert (Hhk : has_frame s (nkf gs) = true).
           { clear - HT H Hk Hnk1 Hgs. rewrite HT by lia. destruct (Z.leb_spec fl (nkf gs)); [|lia].
             destruct (Z.ltb_spec (nkf gs) (s_frame_count s)); [reflexivity|lia]. }
           rewrite Hhk. cbn [negb].
           set (tl := match get n _ with Some t => t | None => [] end).
           assert (FIN : forall go' gi', get (Z.of_nat (S i)) go' = Some (Z.of_nat (S i)) ->
                     get (Z.of_nat (S i)) gi' = Some (nkf gs) ->
                     gops_same s (S i) go' gi' ->
                     exists go gi x, Some (upd s go' gi' (del n (s_t35 s)) (put (Z.of_nat (S i)) (Some (new_key_frame (nkf gs) tl)) (s_data s)) (s_next_la_out s), true) =
       Some (upd s go gi (del n (s_t35 s)) (put (Z.of_nat (S i)) x (s_data s)) (s_next_la_out s), true) /\
     gops_same s (S i) go gi /\ get (Z.of_nat (S i)) go = Some (fst (pos (S i))) /\ get (Z.of_nat (S i)) gi = Some (snd (pos (S i))) /\
     snd (pos (S i)) < L /\ Z.of_nat (S i) <= 6 * s_frame_count s + 6 /\ (s_flushing s = false -> n < s_frame_count s) /\ new_ok (has_frame s) (s_next_la s) (S i) x).
           { intros go' gi' G1 G2 G3. exists go', gi'. eexists. split; [reflexivity|]. split; [exact G3|].
             rewrite Epos. cbn [fst snd]. split; [exact G1|]. split; [exact G2|]. split; [lia|].
             split.
             - assert (HP := pos_facts c iskey L (S i)). cbn zeta in HP. rewrite Epos in HP. cbn [fst snd] in HP.
               destruct HP as (_ & _ & HP). specialize (HP ltac:(lia)). lia.
             - split; [exact Hknf|]. unfold new_ok. rewrite Hen, Epos. cbn [fst snd]. rewrite Z.sub_diag. unfold entry_at. cbn [Z.eqb].
               split; [exact Hhk|]. split.
               { cbn. destruct Hknown as [X|X]; [rewrite X in Hla; clear - Hla Hk Hfcr; lia|clear - X Een; lia]. }
               cbn. split; [|split; [reflexivity|split; [auto|discriminate]]].
               assert (Et : tl = ts (S i)); [|rewrite Et; reflexivity].
               unfold tl, Sched_plan.ts. rewrite Hpre. fold n.
               change (s_t35 (set_gops _ _ s)) with (s_t35 s). rewrite (b_t35 _ _ _ _ _ _ I n ltac:(lia)).
               destruct (taken (S i) n); [reflexivity|]. destruct (Z.ltb_spec n (s_frame_count s)); [reflexivity|].
               unfold t35f, par. destruct (nth_error ps (Z.to_nat n)) eqn:En; [|reflexivity].
               exfalso. assert (En2 : nth_error ps (Z.to_nat n) <> None) by congruence. apply nth_error_Some in En2.
               assert (EL : s_flushing s = true).
               { destruct (s_flushing s) eqn:Ef; [reflexivity|]. specialize (Hknf eq_refl). lia. }
               assert (EL2 := b_flk _ _ _ _ _ _ I EL). unfold zlen in *. lia. }
           destruct (sin (nkf gs) _); cbn [set_gops s_gop_out s_gop_in set_t35]; rewrite ?get_put_same, Z.sub_diag;
             cbn [Z.eqb];
             (change (has_frame _ (fi_input (fd_fi (new_key_frame (nkf gs) tl)))) with (has_frame s (nkf gs)));
             rewrite Hhk; right; (apply FIN; [sgop; apply get_put_same|sgop; apply get_put_same|gops]).
        -- left. do 3 eexists. split; [reflexivity|]. split; [|split; [|split]].
           ++ gops.
           ++ right. split; [reflexivity|lia].
           ++ intros E. rewrite Epos. cbn [snd]. assert (X := b_flk _ _ _ _ _ _ I E). clear - X Hk. lia.
           ++ intros E. exfalso. specialize (Hknf E). lia.
      * (* placeholder *)
        destruct Hpc as [(Hx & _)|(_ & Epos)]; [congruence|].
        change (previous_coded_fi (set_t35 _ _) (Z.of_nat (S i))) with (previous_coded_fi s (Z.of_nat (S i))).
        destruct (prev_coded _ _ _ _ _ _ I HBo) as (p & d & -> & Hp & Hd & Hsef & Hnc).
        unfold new_inter_frame. rewrite get_input_eq by exact Hhb. fold n.
        assert (Hnkn := Een). rewrite Hnk2 in Hnkn by lia. rewrite Hnkn.
        right. do 3 eexists. split; [reflexivity|]. rewrite Epos. cbn [fst snd].
        split; [gops|].
        split; [sgop; apply get_put_same|]. split; [sgop; apply get_put_same|]. split; [lia|]. split.
        -- assert (HB0 := pos_bound c iskey L (S i) (s_frame_count s)). rewrite Epos in HB0. cbn [fst snd] in HB0.
           apply HB0; [lia| |].
           ++ intros _. destruct (s_flushing s) eqn:Ef.
              ** assert (X := b_flk _ _ _ _ _ _ I Ef).
                 assert (HP := pos_facts c iskey L (S i)). cbn zeta in HP. rewrite Epos in HP. cbn [fst snd] in HP.
                 destruct HP as (_ & _ & HP). specialize (HP ltac:(lia)). fold j in HP. destruct HP as (_ & _ & HP).
                 fold j. specialize (HP Hj). lia.
              ** specialize (Hknf eq_refl). fold j. lia.
           ++ destruct (s_flushing s) eqn:Ef; [assert (X := b_flk _ _ _ _ _ _ I Ef); lia|]. specialize (Hknf eq_refl). lia.
        -- split; [exact Hknf|]. unfold new_ok. rewrite Hen, Epos. cbn [fst snd]. fold j. unfold entry_at.
           destruct (Z.eqb_spec j 0); [lia|]. fold n. rewrite Een. exact Coq.Init.Logic.I.
    + (* an inter frame *)
      assert (Hnlt : n < nkf gs). { rewrite Hnk2 in Een by lia. lia. }
      assert (Ea : adv c iskey L gs j = false).
      { unfold adv. destruct (Z.eqb_spec (ridx c j) 0); [|reflexivity]. cbn [andb]. rewrite Hnk2 by lia. lia. }
      destruct Hpc as [(Hx & _)|(_ & Epos)]; [congruence|]. clear Hlst Hpd pd.
      assert (Hnkl : (next_kf c s gs <=? n) = false).
      { rewrite (next_kf_le _ _ _ _ _ _ gs n I) by (auto; lia). exact Een. }
      assert (Hj0 : (j =? 0) = false) by lia.
      assert (Hkn : n < s_frame_count s).
      { destruct (s_flushing s) eqn:Ef; [assert (X := b_flk _ _ _ _ _ _ I Ef); lia|]. apply Hknf. reflexivity. }
      assert (Hnla : n < s_next_la s).
      { destruct Hknown as [X|X]; [rewrite X in Hla; lia|exact X]. }
      clear Hfc HnL Hknown Hknf Enm Hla.
      assert (Hfn : fl <= n).
      { assert (sb (S i) <= n); [|lia]. rewrite HsbS, Epos. cbn [fst snd]. fold j. unfold sbf.
        rewrite Hj0. rewrite Hin. unfold hintz in *. assert (R := ridx_range c iskey j).
        destruct (cases_mode c) as [(_ & E1 & E2 & E3)|(_ & E1 & E2 & E3)]; rewrite ?E1, ?E2, ?E3 in *.
        - destruct (Z.ltb_spec (ridx c j) 2); lia.
        - destruct (Z.ltb_spec (ridx c j) 0); lia. }
      unfold build_tail.
      change (has_frame (set_t35 _ _) n) with (has_frame s n).
      assert (Hhf : has_frame s n = true).
      { rewrite HT by lia. destruct (Z.leb_spec fl n); [|lia]. destruct (Z.ltb_spec n (s_frame_count s)); [reflexivity|lia]. }
      rewrite Hhf. cbn [negb].
      change (s_keyframes (set_t35 _ _)) with (s_keyframes s).
      assert (Hsin : sin n (s_keyframes s) = false).
      { rewrite (sin_keys _ _ _ _ _ _ _ I) by lia. destruct (Z.eqb_spec n 0); [lia|]. cbn [orb].
        destruct (iskey n) eqn:Ek; [|reflexivity]. exfalso.
        assert (gstart n = n) by (apply gstart_key; [lia|exact Ek]).
        unfold Sched_plan.ends in Een. apply orb_false_iff in Een. destruct Een as [_ Een].
        apply negb_false_iff, Z.eqb_eq in Een. lia. }
      rewrite Hsin. cbn [set_t35 set_gops s_gop_out s_gop_in]. rewrite !get_put_same.
      fold j. rewrite Hj0.
      set (tl := match get n _ with Some t => t | None => [] end).
      change (previous_coded_fi _ (Z.of_nat (S i))) with (previous_coded_fi s (Z.of_nat (S i))).
      destruct (prev_coded _ _ _ _ _ _ I HBo) as (p & d & -> & Hp & Hd & Hsef & Hnc).
      unfold new_inter_frame. rewrite get_input_eq by exact Hhb. fold n.
      change (next_kf c _ gs) with (next_kf c s gs).
      rewrite Hnkl.
      cbn [fd_fi]. assert (Efi : fi_input (inter_info c gs j tl) = n).
      { cbn [inter_info fi_input]. apply get_input_eq. exact Hhb. }
      rewrite Efi. match goal with |- context [has_frame ?x n] => change (has_frame x n) with (has_frame s n) end. rewrite Hhf.
      right. do 3 eexists. split; [reflexivity|]. rewrite Epos. cbn [fst snd].
      split; [gops|].
      split; [sgop; apply get_put_same|]. split; [sgop; apply get_put_same|]. split; [lia|]. split.
      * assert (HB0 := pos_bound c iskey L (S i) (s_frame_count s)). rewrite Epos in HB0. cbn [fst snd] in HB0.
        apply HB0; [lia| |lia]. intros _. fold j. lia.
      * split; [intros _; exact Hkn|]. unfold new_ok. rewrite Hen, Epos. cbn [fst snd]. fold j. unfold entry_at.
        rewrite Hj0. fold n. rewrite Een.
        assert (Et : tl = ts (S i)).
        { unfold tl, Sched_plan.ts. rewrite Hpre. fold n.
          change (s_t35 (set_gops _ _ s)) with (s_t35 s). apply T35; [clear - Hin Hlb Hig Hgs; lia|exact Hkn]. }
        rewrite Et. cbn [fd_fi fd_out fd_rec fd_la].
        split; [cbn [inter_info fi_input]; rewrite get_input_eq by exact Hhb; exact Hhf|].
        split; [cbn [inter_info fi_input]; rewrite get_input_eq by exact Hhb; exact Hnla|]. split; [reflexivity|]. split; [reflexivity|]. split; [rewrite inter_not_key; discriminate|].
        intros _ Hs. rewrite Hs.
        assert (D := b_dat _ _ _ _ _ _ I p ltac:(clear - Hp Hlo; lia) ltac:(clear - Hp; lia)). rewrite Hd in D. unfold data_ok in D.
        destruct (entry p) as [fp|] eqn:Ep; [|contradiction]. destruct D as (D1 & D2 & _).
        rewrite D2 by (rewrite <- D1; exact Hsef). symmetry. apply dpb_nocoded; [clear - Hp; lia|exact Hnc].
Qed.
End Inv.
