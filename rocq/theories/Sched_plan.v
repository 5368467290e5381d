(** The coding plan: the sequence of output frames as a closed function of the
    configuration, the key-frame decisions, the number of frames and the
    per-frame parameters.  Nothing in it depends on when the user calls
    receive_packet.  [Sched_inv] shows that every state of the encoder front end
    holds a window of this plan; the property theorems are about the packets
    that come out. *)
From Verif Require Import Base SMap Sched_model.

Fixpoint zseq (lo : Z) (n : nat) : list Z :=
  match n with O => [] | S k => lo :: zseq (lo + 1) k end.

Lemma in_zseq n : forall lo x, In x (zseq lo n) <-> lo <= x < lo + Z.of_nat n.
Proof.
  induction n as [|n IH]; intros lo x; cbn [zseq In]; [lia|]. rewrite IH. lia.
Qed.
Lemma zseq_snoc n : forall lo, zseq lo (S n) = zseq lo n ++ [lo + Z.of_nat n].
Proof.
  induction n as [|n IH]; intros lo; [cbn; f_equal; lia|].
  change (zseq lo (S (S n))) with (lo :: zseq (lo + 1) (S n)). rewrite IH. cbn [zseq app].
  replace (lo + 1 + Z.of_nat n) with (lo + Z.of_nat (S n)) by lia. reflexivity.
Qed.

Section Plan.
Variable c : config.
Variable iskey : Z -> bool.       (* forced or detected, for n >= 1 *)

Notation IL := (ic_in_len c).
Notation OL := (ic_out_len c).
Notation depth := (ic_depth c).

Hypothesis Hkf : 1 <= cf_max_kf c.

(** The key frame that input [n] belongs to. *)
Fixpoint gstart_n (n : nat) : Z :=
  match n with
  | O => 0
  | S m =>
      let g := gstart_n m in
      if iskey (Z.of_nat n) || (cf_max_kf c <=? Z.of_nat n - g) then Z.of_nat n else g
  end.
Definition gstart (z : Z) : Z := gstart_n (Z.to_nat z).

Lemma gstart_0 : gstart 0 = 0. Proof. reflexivity. Qed.
Lemma gstart_succ n : 0 <= n ->
  gstart (n + 1) = if iskey (n + 1) || (cf_max_kf c <=? n + 1 - gstart n) then n + 1 else gstart n.
Proof.
  intros Hn. unfold gstart. replace (Z.to_nat (n + 1)) with (S (Z.to_nat n)) by lia. cbn [gstart_n].
  replace (Z.of_nat (S (Z.to_nat n))) with (n + 1) by lia. reflexivity.
Qed.
Lemma gstart_le n : 0 <= n -> 0 <= gstart n <= n.
Proof.
  revert n. apply natlike_ind; [rewrite gstart_0; lia|].
  intros n Hn IH. unfold Z.succ. rewrite gstart_succ by lia.
  destruct (iskey (n + 1) || _); lia.
Qed.
Lemma gstart_key n : 1 <= n -> iskey n = true -> gstart n = n.
Proof.
  intros Hn Hk. replace n with (n - 1 + 1) in * by lia. rewrite gstart_succ by lia. rewrite Hk. reflexivity.
Qed.
(** Inputs from the key frame on belong to it. *)
Lemma gstart_conv n : 0 <= n -> forall m, gstart n <= m <= n -> gstart m = gstart n.
Proof.
  revert n. refine (natlike_ind _ _ _).
  - intros m Hm. rewrite gstart_0 in *. replace m with 0 by lia. apply gstart_0.
  - intros n Hn IH m Hm. unfold Z.succ in *.
    destruct (Z.eq_dec m (n + 1)) as [->|Hne]; [reflexivity|].
    rewrite gstart_succ in * by lia. destruct (iskey (n + 1) || _); [lia|]. apply IH. lia.
Qed.
Lemma gstart_idem n : 0 <= n -> gstart (gstart n) = gstart n.
Proof. intros Hn. apply gstart_conv; [lia|]. pose proof (gstart_le n Hn). lia. Qed.
(** Characterisation: the first key after gs, or the interval limit. *)
Lemma gstart_mono n m : 0 <= n <= m -> gstart n <= gstart m.
Proof.
  intros [Hn Hm]. destruct (Z_le_gt_dec (gstart m) n).
  - rewrite <- (gstart_conv m ltac:(lia) n) by lia. lia.
  - pose proof (gstart_le n Hn). lia.
Qed.
Lemma gstart_window n : 0 <= n -> n < gstart n + cf_max_kf c.
Proof.
  revert n. apply natlike_ind; [rewrite gstart_0; lia|].
  intros n Hn IH. unfold Z.succ. rewrite gstart_succ by lia.
  destruct (iskey (n + 1)); cbn [orb]; [lia|].
  destruct (Z.leb_spec (cf_max_kf c) (n + 1 - gstart n)); lia.
Qed.
Lemma gstart_nokey n : 0 <= n -> forall m, gstart n < m <= n -> iskey m = false.
Proof.
  intros Hn m Hm. destruct (iskey m) eqn:E; [|reflexivity]. exfalso.
  pose proof (gstart_le n Hn).
  assert (gstart m = m) by (apply gstart_key; [lia|exact E]).
  assert (gstart m = gstart n) by (apply gstart_conv; lia). lia.
Qed.
Lemma gstart_stays gs n : 0 <= gs <= n -> gstart gs = gs -> n < gs + cf_max_kf c ->
  (forall m, gs < m <= n -> iskey m = false) -> gstart n = gs.
Proof.
  intros [H0 Hn] Hg Hmax Hno. replace n with (gs + (n - gs)) in * by lia.
  assert (Hd : 0 <= n - gs) by lia. remember (n - gs) as d eqn:Ed. clear Ed Hn.
  revert Hmax Hno. pattern d. apply natlike_ind; [..|exact Hd].
  - intros _ _. rewrite Z.add_0_r. exact Hg.
  - intros e He IH Hmax Hno. unfold Z.succ in *. rewrite Z.add_assoc. rewrite gstart_succ by lia.
    rewrite IH by (try lia; intros m Hm; apply Hno; lia). rewrite Hno by lia. cbn [orb].
    destruct (Z.leb_spec (cf_max_kf c) (gs + e + 1 - gs)); lia.
Qed.

Variable L : Z.                   (* number of frames *)

(** Does the GOP starting at [gs] end at or before [n]? *)
Definition ends (gs n : Z) : bool := (L <=? n) || negb (gstart n =? gs).
(** Start of the next GOP. *)
Definition nkf (gs : Z) : Z :=
  match find (ends gs) (zseq (gs + 1) (Z.to_nat (L - gs))) with Some n => n | None => gs + 1 end.

Lemma ends_mono gs n m : 0 <= gs -> gstart gs = gs -> gs <= n <= m -> ends gs n = true -> ends gs m = true.
Proof.
  unfold ends. intros H0 Hg Hnm. rewrite !orb_true_iff, !negb_true_iff, !Z.leb_le, !Z.eqb_neq.
  intros [|H]; [left; lia|right]. intros E. apply H.
  pose proof (gstart_conv m ltac:(lia) n). lia.
Qed.
Lemma ends_gs gs : gs < L -> gstart gs = gs -> ends gs gs = false.
Proof. unfold ends. intros H ->. rewrite Z.eqb_refl. destruct (Z.leb_spec L gs); [lia|reflexivity]. Qed.

Lemma find_first (p : Z -> bool) n : forall lo x, find p (zseq lo n) = Some x ->
  lo <= x < lo + Z.of_nat n /\ p x = true /\ forall y, lo <= y < x -> p y = false.
Proof.
  induction n as [|n IH]; intros lo x; cbn [zseq find]; [discriminate|].
  destruct (p lo) eqn:E.
  - intros [= <-]. split; [lia|]. split; [exact E|]. intros; lia.
  - intros H. destruct (IH _ _ H) as (H1 & H2 & H3). split; [lia|]. split; [exact H2|].
    intros y Hy. destruct (Z.eq_dec y lo) as [->|]; [exact E|apply H3; lia].
Qed.

Lemma nkf_gt gs : gs < nkf gs.
Proof.
  unfold nkf. destruct (find _ _) as [x|] eqn:E; [apply find_first in E; lia|lia].
Qed.
Lemma nkf_spec gs : 0 <= gs < L -> gstart gs = gs ->
  gs < nkf gs <= L /\ (forall n, gs <= n -> ends gs n = (nkf gs <=? n)).
Proof.
  intros HgsL Hg. unfold nkf. destruct (find _ _) as [x|] eqn:E.
  - apply find_first in E. destruct E as (H1 & H2 & H3). split; [lia|].
    intros n Hn. destruct (Z.leb_spec x n).
    + apply (ends_mono gs x n); [lia|exact Hg|lia|exact H2].
    + destruct (Z.eq_dec n gs) as [->|]; [apply ends_gs; [lia|exact Hg]|]. apply H3. lia.
  - exfalso. assert (H := find_none _ _ E L). rewrite in_zseq in H. specialize (H ltac:(lia)).
    unfold ends in H. destruct (Z.leb_spec L L); [discriminate|lia].
Qed.
Lemma nkf_start gs : 0 <= gs < L -> gstart gs = gs -> nkf gs < L -> gstart (nkf gs) = nkf gs.
Proof.
  intros HgsL Hg Hn. destruct (nkf_spec gs HgsL Hg) as [H1 H2].
  assert (E := H2 (nkf gs) ltac:(lia)). rewrite Z.leb_refl in E.
  assert (E0 := H2 (nkf gs - 1) ltac:(lia)).
  unfold ends in *. destruct (Z.leb_spec (nkf gs) (nkf gs - 1)); [lia|].
  destruct (Z.leb_spec L (nkf gs)); [lia|]. cbn [orb] in E. apply negb_true_iff, Z.eqb_neq in E.
  destruct (Z.leb_spec L (nkf gs - 1)); [lia|]. cbn [orb] in E0. apply negb_false_iff, Z.eqb_eq in E0.
  set (k := nkf gs) in *. replace k with (k - 1 + 1) in E |- * by lia.
  rewrite gstart_succ in * by lia. destruct (iskey _ || _); [reflexivity|]. congruence.
Qed.

(** ** Positions *)
(** Order hint of position [j] >= 1 in a GOP, and its group and index. *)
Definition gidx (j : Z) : Z := (j - 1) / OL.
Definition ridx (j : Z) : Z := (j - 1) mod OL.
Definition hintz (j : Z) : Z :=
  IL * gidx j + (if ridx j <? depth then IL / 2 ^ ridx j else ridx j - depth + 1).
Definition inputz (gs j : Z) : Z := if j =? 0 then gs else gs + hintz j.

(** Does the GOP end before position [j]? *)
Definition adv (gs j : Z) : bool := (ridx j =? 0) && ends gs (gs + IL * gidx j + 1).

(** GOP of output frame [i]: its first output and input frame. *)
Fixpoint pos (i : nat) : Z * Z :=
  match i with
  | O => (0, 0)
  | S k =>
      let '(go, gs) := pos k in
      if adv gs (Z.of_nat i - go) then (Z.of_nat i, nkf gs) else (go, gs)
  end.
Definition ppos (i : nat) : Z * Z := match i with O => (0, 0) | S k => pos k end.
(** The input number examined first when output frame [i] is built. *)
Definition pre (i : nat) : Z := inputz (snd (ppos i)) (Z.of_nat i - fst (ppos i)).
(** Number of input frames shown before output frame [i]. *)
Definition sbf (gs j : Z) : Z :=
  if j =? 0 then gs else Z.min (nkf gs) (gs + IL * gidx j + 1 + Z.max 0 (ridx j - depth)).
Definition sb (i : nat) : Z := sbf (snd (pos i)) (Z.of_nat i - fst (pos i)).

(** ** Facts about positions *)
Lemma cases_mode : (ic_reorder c = true /\ depth = 2 /\ IL = 4 /\ OL = 6) \/
                   (ic_reorder c = false /\ depth = 0 /\ IL = 1 /\ OL = 1).
Proof.
  unfold ic_out_len, ic_in_len, ic_depth. destruct (ic_reorder c); [left|right]; auto.
Qed.

Lemma ridx_range j : 0 <= ridx j < OL.
Proof.
  unfold ridx. destruct cases_mode as [(_ & _ & _ & ->)|(_ & _ & _ & ->)]; apply Z.mod_pos_bound; lia.
Qed.
Lemma gidx_nonneg j : 1 <= j -> 0 <= gidx j.
Proof. unfold gidx. intros. apply Z.div_pos; [lia|]. destruct cases_mode as [(_ & _ & _ & ->)|(_ & _ & _ & ->)]; lia. Qed.
Lemma j_decomp j : j = OL * gidx j + ridx j + 1.
Proof.
  unfold gidx, ridx. pose proof (Z.div_mod (j - 1) OL). destruct cases_mode as [(_ & _ & _ & E)|(_ & _ & _ & E)]; rewrite E in *; lia.
Qed.
(** Stepping within a GOP. *)
Lemma step_same j : 1 <= j -> ridx j + 1 < OL -> ridx (j + 1) = ridx j + 1 /\ gidx (j + 1) = gidx j.
Proof.
  intros Hj. unfold ridx, gidx. destruct cases_mode as [(_ & _ & _ & ->)|(_ & _ & _ & ->)]; dlia.
Qed.
Lemma step_next j : 1 <= j -> ridx j + 1 = OL -> ridx (j + 1) = 0 /\ gidx (j + 1) = gidx j + 1.
Proof.
  intros Hj. unfold ridx, gidx. destruct cases_mode as [(_ & _ & _ & ->)|(_ & _ & _ & ->)]; dlia.
Qed.
Lemma step_first : ridx 1 = 0 /\ gidx 1 = 0.
Proof. unfold ridx, gidx. destruct cases_mode as [(_ & _ & _ & ->)|(_ & _ & _ & ->)]; auto. Qed.

Lemma ILg j : 1 <= j -> 0 <= IL * gidx j.
Proof.
  intros Hj. assert (H := gidx_nonneg j Hj). destruct cases_mode as [(_ & _ & -> & _)|(_ & _ & -> & _)]; lia.
Qed.
Lemma hintz_lb j : 1 <= j -> IL * gidx j + 1 <= hintz j.
Proof.
  intros Hj. unfold hintz. pose proof (ridx_range j).
  destruct cases_mode as [(_ & E1 & E2 & E3)|(_ & E1 & E2 & E3)]; rewrite ?E1, ?E2, ?E3 in *.
  - destruct (Z.ltb_spec (ridx j) 2); [|lia]. assert (ridx j = 0 \/ ridx j = 1) as [->| ->] by lia; cbn; lia.
  - destruct (Z.ltb_spec (ridx j) 0); lia.
Qed.
Lemma hintz_ub j : 1 <= j -> hintz j <= IL * gidx j + IL.
Proof.
  intros Hj. unfold hintz. pose proof (ridx_range j).
  destruct cases_mode as [(_ & E1 & E2 & E3)|(_ & E1 & E2 & E3)]; rewrite ?E1, ?E2, ?E3 in *.
  - destruct (Z.ltb_spec (ridx j) 2); [|lia]. assert (ridx j = 0 \/ ridx j = 1) as [->| ->] by lia; cbn; lia.
  - destruct (Z.ltb_spec (ridx j) 0); lia.
Qed.

Lemma pos_S i : pos (S i) = (let '(go, gs) := pos i in
      if adv gs (Z.of_nat (S i) - go) then (Z.of_nat (S i), nkf gs) else (go, gs)).
Proof. reflexivity. Qed.

Lemma pos_S_cases i : let go := fst (pos i) in let gs := snd (pos i) in
  (adv gs (Z.of_nat (S i) - go) = true /\ pos (S i) = (Z.of_nat (S i), nkf gs)) \/
  (adv gs (Z.of_nat (S i) - go) = false /\ pos (S i) = (go, gs)).
Proof.
  rewrite pos_S. destruct (pos i) as [go gs]. cbn [fst snd].
  destruct (adv gs (Z.of_nat (S i) - go)); auto.
Qed.

Lemma pos_gs_mono i : snd (pos i) <= snd (pos (S i)).
Proof.
  destruct (pos_S_cases i) as [(_ & ->)|(_ & ->)]; cbn [snd]; [|lia]. pose proof (nkf_gt (snd (pos i))). lia.
Qed.

Lemma pos_facts i : let go := fst (pos i) in let gs := snd (pos i) in let j := Z.of_nat i - go in
  0 <= go <= Z.of_nat i /\ 0 <= gs /\
  (gs < L -> gstart gs = gs /\ go <= 6 * gs /\ (1 <= j -> gs + IL * gidx j + 1 < nkf gs)).
Proof.
  induction i as [|i IH]; cbn zeta in *.
  - cbn [pos fst snd]. split; [lia|]. split; [lia|]. intros _. split; [apply gstart_0|]. split; lia.
  - destruct IH as (Hgo & Hgs & IH).
    destruct (pos_S_cases i) as [(Ha & ->)|(Ha & ->)]; cbn [fst snd].
    + pose proof (nkf_gt (snd (pos i))). split; [lia|]. split; [lia|]. intros HL.
      destruct (IH ltac:(lia)) as (Hg & Hgo6 & Hrm). split; [apply nkf_start; [lia|exact Hg|lia]|].
      split; [|lia].
      unfold adv in Ha. apply andb_true_iff in Ha. destruct Ha as [Ha1 Ha2]. apply Z.eqb_eq in Ha1.
      set (j := Z.of_nat (S i) - fst (pos i)) in *.
      destruct (nkf_spec (snd (pos i)) ltac:(lia) Hg) as [Hb1 Hb2].
      rewrite Hb2 in Ha2. 2:{ pose proof (gidx_nonneg j ltac:(lia)). destruct cases_mode as [(_ & _ & -> & _)|(_ & _ & -> & _)]; lia. }
      assert (Hj := j_decomp j). assert (Hg0 := gidx_nonneg j ltac:(lia)).
      destruct (Z.eq_dec j 1) as [E1|Hne].
      { lia. }
      assert (Hprev : 1 <= Z.of_nat i - fst (pos i)) by lia. specialize (Hrm Hprev).
      assert (gidx (Z.of_nat i - fst (pos i)) = gidx j - 1).
      { assert (Ej : j = Z.of_nat i - fst (pos i) + 1) by lia.
        assert (Hr := ridx_range (Z.of_nat i - fst (pos i))).
        destruct (Z.eq_dec (ridx (Z.of_nat i - fst (pos i)) + 1) OL) as [E|E].
        - destruct (step_next _ Hprev E). rewrite Ej. lia.
        - destruct (step_same _ Hprev ltac:(lia)) as [E2 _]. rewrite <- Ej in E2. lia. }
      destruct cases_mode as [(_ & _ & E2 & E3)|(_ & _ & E2 & E3)]; rewrite E2, E3 in *; lia.
    + split; [lia|]. split; [lia|]. intros HL. destruct (IH HL) as (Hg & Hgo6 & Hrm).
      split; [exact Hg|]. split; [exact Hgo6|]. intros Hj.
      set (j := Z.of_nat (S i) - fst (pos i)) in *. destruct (nkf_spec (snd (pos i)) ltac:(lia) Hg) as [Hb1 Hb2].
      assert (Hg0 := gidx_nonneg j ltac:(lia)). assert (Hr := ridx_range j).
      destruct (Z.eq_dec (ridx j) 0) as [E0|Hr0].
      * unfold adv in Ha. rewrite E0 in Ha. cbn [Z.eqb andb] in Ha.
        rewrite Hb2 in Ha by (destruct cases_mode as [(_ & _ & -> & _)|(_ & _ & -> & _)]; lia). lia.
      * assert (Hjd := j_decomp j).
        assert (Hprev : 1 <= Z.of_nat i - fst (pos i)).
        { destruct (Z.eq_dec j 1) as [Ej|]; [|lia]. rewrite Ej in Hr0. destruct step_first; congruence. }
        assert (Ej : j = Z.of_nat i - fst (pos i) + 1) by lia.
        assert (Hr2 := ridx_range (Z.of_nat i - fst (pos i))).
        destruct (Z.eq_dec (ridx (Z.of_nat i - fst (pos i)) + 1) OL) as [E|E].
        -- destruct (step_next _ Hprev E) as [E1 E2]. rewrite <- Ej in E1. lia.
        -- destruct (step_same _ Hprev ltac:(lia)) as [E1 E2]. rewrite Ej, E2. apply Hrm. lia.
Qed.

(** Position is bounded by the input number reached. *)
Lemma pos_bound i m : snd (pos i) < L -> let j := Z.of_nat i - fst (pos i) in
  (1 <= j -> snd (pos i) + IL * gidx j + 1 <= m) -> snd (pos i) <= m -> Z.of_nat i <= 6 * m + 6.
Proof.
  intros HL j Hm Hm0. destruct (pos_facts i) as (Hgo & Hgs & H). destruct (H HL) as (Hg & Hgo6 & Hrm).
  destruct (Z_le_gt_dec 1 j) as [Hj|Hj]; [|subst j; lia].
  specialize (Hm Hj). assert (Hd := j_decomp j). assert (Hr := ridx_range j).
  assert (Hg0 := gidx_nonneg j Hj). subst j.
  destruct cases_mode as [(_ & _ & E2 & E3)|(_ & _ & E2 & E3)]; rewrite E2, E3 in *; lia.
Qed.

(** ** Shown frames come in input order *)
Lemma get_order_hint_eq j : 0 <= hintz j < 2 ^ 32 -> get_order_hint c j (get_idx c j) = hintz j.
Proof.
  intros H. unfold get_order_hint, get_idx. change ((j - 1) mod OL) with (ridx j).
  change ((j - 1) / OL) with (gidx j). change (IL * gidx j + (if ridx j <? depth then IL / 2 ^ ridx j else ridx j - depth + 1))
    with (hintz j). apply u32_id. exact H.
Qed.
Lemma get_input_eq j gs : 0 <= hintz j < 2 ^ 32 -> get_input c j gs = inputz gs j.
Proof.
  intros H. unfold get_input, inputz. destruct (j =? 0); [reflexivity|]. rewrite get_order_hint_eq by exact H.
  reflexivity.
Qed.

(** When the plan is complete all frames have been shown. *)
Lemma sb_end i : snd (pos i) < L -> L <= snd (pos (S i)) -> sb (S i) = L.
Proof.
  intros H1 H2. destruct (pos_facts i) as (Hgo & Hgs & H). destruct (H H1) as (Hg & _).
  destruct (nkf_spec (snd (pos i)) ltac:(lia) Hg) as [H5 _].
  destruct (pos_S_cases i) as [(_ & E)|(_ & E)]; rewrite E in *; cbn [snd] in *; [|lia].
  unfold sb. rewrite E. cbn [fst snd]. rewrite Z.sub_diag. unfold sbf. cbn. lia.
Qed.
Lemma sb_le_L i : snd (pos i) < L -> sb i < L \/ sb i = L.
Proof.
  intros H1. destruct (pos_facts i) as (Hgo & Hgs & H). destruct (H H1) as (Hg & _).
  destruct (nkf_spec (snd (pos i)) ltac:(lia) Hg) as [H5 _]. unfold sb, sbf.
  destruct (_ =? 0); lia.
Qed.
(** No u32 overflow of the order hints of existing frames. *)
Hypothesis HL32 : L < 2 ^ 31.

Lemma hint_bound i : snd (pos i) < L -> 1 <= Z.of_nat i - fst (pos i) ->
  0 <= hintz (Z.of_nat i - fst (pos i)) < 2 ^ 32.
Proof.
  intros H1 H2. destruct (pos_facts i) as (Hgo & Hgs & H). destruct (H H1) as (Hg & Hgo6 & Hrm).
  specialize (Hrm H2). assert (H3 := hintz_lb _ H2). assert (H4 := hintz_ub _ H2).
  destruct (nkf_spec (snd (pos i)) ltac:(lia) Hg) as [H5 _].
  assert (H6 := gidx_nonneg _ H2).
  destruct cases_mode as [(_ & _ & E & _)|(_ & _ & E & _)]; rewrite E in *; lia.
Qed.

Variable t35s : Z -> list Z.

(** T.35 data attached to output frame [i]. *)
Definition taken (i : nat) (n : Z) : bool := existsb (fun k => pre k =? n) (seq 0 i).
Definition ts (i : nat) : list Z := if taken i (pre i) then [] else t35s (pre i).

Definition entry_at (gs j : Z) (t : list Z) : option finfo :=
  if j =? 0 then Some (fd_fi (new_key_frame gs t))
  else if ends gs (inputz gs j) then None
  else Some (inter_info c gs j t).
Definition entry (i : nat) : option finfo :=
  entry_at (snd (pos i)) (Z.of_nat i - fst (pos i)) (ts i).

Definition shown (e : option finfo) : bool :=
  match e with Some fi => fi_show fi | None => false end.
Definition coded (i : nat) : bool :=
  match entry i with Some fi => negb (fi_sef fi) | None => false end.

(** The input number of an existing entry, and that it is at least the number
    of frames shown so far. *)
Lemma entry_input i fi : snd (pos i) < L -> entry i = Some fi ->
  fi_input fi = inputz (snd (pos i)) (Z.of_nat i - fst (pos i)) /\
  sb i <= fi_input fi < nkf (snd (pos i)) /\ (fi_show fi = true -> fi_input fi = sb i).
Proof.
  intros HL. unfold entry, entry_at, sb, sbf.
  destruct (pos_facts i) as (Hgo & Hgs & H). destruct (H HL) as (Hg & Hgo6 & Hrm).
  destruct (nkf_spec (snd (pos i)) ltac:(lia) Hg) as [H5 H6].
  destruct (Z.eqb_spec (Z.of_nat i - fst (pos i)) 0) as [E|E].
  - intros [= <-]. cbn. unfold inputz. rewrite E. cbn. split; [reflexivity|]. split; [lia|reflexivity].
  - assert (Hj : 1 <= Z.of_nat i - fst (pos i)) by lia.
    assert (Hb := hint_bound i HL Hj). specialize (Hrm Hj).
    set (j := Z.of_nat i - fst (pos i)) in *.
    destruct (ends _ _) eqn:Ee; [discriminate|]. intros [= <-].
    cbn [inter_info fi_input fi_show]. rewrite get_input_eq by exact Hb.
    rewrite H6 in Ee.
    2:{ unfold inputz. destruct (Z.eqb_spec j 0); lia. }
    split; [reflexivity|].
    assert (Hr := ridx_range j). unfold get_show_frame, get_idx. change ((j - 1) mod OL) with (ridx j).
    assert (Hlb := hintz_lb j Hj). assert (Hig := ILg j Hj).
    unfold inputz in *. destruct (Z.eqb_spec j 0); [lia|]. unfold hintz in *.
    destruct cases_mode as [(_ & E1 & E2 & E3)|(_ & E1 & E2 & E3)]; rewrite ?E1, ?E2, ?E3 in *.
    + destruct (Z.ltb_spec (ridx j) 2); split; lia.
    + destruct (Z.ltb_spec (ridx j) 0); split; lia.
Qed.

(** Advancing one entry advances the count exactly when it is shown. *)
Lemma sb_S i : snd (pos i) < L -> sb (S i) = sb i + b2z (shown (entry i)).
Proof.
  intros HL. destruct (pos_facts i) as (Hgo & Hgs & H). destruct (H HL) as (Hg & Hgo6 & Hrm).
  destruct (nkf_spec (snd (pos i)) ltac:(lia) Hg) as [H5 H6].
  set (gs := snd (pos i)) in *. set (j := Z.of_nat i - fst (pos i)) in *.
  assert (Hj1 : Z.of_nat (S i) - fst (pos i) = j + 1) by (subst j; lia).
  assert (Hsb : sb (S i) = Z.min (nkf gs) (gs + IL * gidx (j + 1) + 1 + Z.max 0 (ridx (j + 1) - depth))).
  { unfold sb. destruct (pos_S_cases i) as [(Ha & E)|(Ha & E)]; rewrite E; cbn [fst snd].
    - fold gs in Ha |- *. rewrite Z.sub_diag. unfold sbf at 1. cbn [Z.eqb].
      rewrite Hj1 in Ha. unfold adv in Ha. apply andb_true_iff in Ha. destruct Ha as [Ha1 Ha2].
      apply Z.eqb_eq in Ha1. assert (G := gidx_nonneg (j + 1) ltac:(lia)).
      rewrite H6 in Ha2 by (destruct cases_mode as [(_ & _ & -> & _)|(_ & _ & -> & _)]; lia).
      rewrite Ha1. clear - Ha2 Hgs. destruct cases_mode as [(_ & E1 & E2 & _)|(_ & E1 & E2 & _)]; rewrite ?E1, ?E2 in *; lia.
    - fold gs. rewrite Hj1. unfold sbf. destruct (Z.eqb_spec (j + 1) 0); [subst j; lia|reflexivity]. }
  rewrite Hsb. unfold sb. fold gs j. unfold sbf, entry, entry_at. fold gs j.
  destruct (Z.eqb_spec j 0) as [E|E].
  - replace (j + 1) with 1 by lia. destruct step_first as [-> ->]. cbn [shown new_key_frame fd_fi fi_show b2z].
    clear - H5. destruct cases_mode as [(_ & E1 & E2 & _)|(_ & E1 & E2 & _)]; rewrite ?E1, ?E2 in *; lia.
  - assert (Hj : 1 <= j) by (subst j; lia). specialize (Hrm Hj).
    assert (Hlb := hintz_lb j Hj). assert (Hr := ridx_range j). assert (Hig := ILg j Hj).
    rewrite H6 by (unfold inputz; destruct (Z.eqb_spec j 0); lia).
    assert (Hih : inputz gs j = gs + hintz j) by (unfold inputz; destruct (Z.eqb_spec j 0); lia).
    assert (Hsh : b2z (shown (if nkf gs <=? inputz gs j then None else Some (inter_info c gs j (ts i)))) =
                  if nkf gs <=? inputz gs j then 0 else b2z (depth <=? ridx j)).
    { destruct (nkf gs <=? inputz gs j); reflexivity. }
    rewrite Hsh, Hih. unfold hintz in *. clear Hsh Hih Hsb.
    destruct (Z.eq_dec (ridx j + 1) OL) as [En|En].
    + destruct (step_next j Hj En) as [-> ->].
      destruct cases_mode as [(_ & E1 & E2 & E3)|(_ & E1 & E2 & E3)]; rewrite ?E1, ?E2, ?E3 in *.
      * destruct (Z.ltb_spec (ridx j) 2); [lia|]. destruct (Z.leb_spec 2 (ridx j)); [|lia].
        cbn [b2z]. destruct (Z.leb_spec (nkf gs) (gs + (4 * gidx j + (ridx j - 2 + 1)))); lia.
      * destruct (Z.ltb_spec (ridx j) 0); [lia|]. destruct (Z.leb_spec 0 (ridx j)); [|lia].
        cbn [b2z]. destruct (Z.leb_spec (nkf gs) (gs + (1 * gidx j + (ridx j - 0 + 1)))); lia.
    + destruct (step_same j Hj ltac:(lia)) as [-> ->].
      destruct cases_mode as [(_ & E1 & E2 & E3)|(_ & E1 & E2 & E3)]; rewrite ?E1, ?E2, ?E3 in *.
      * destruct (Z.ltb_spec (ridx j) 2).
        { destruct (Z.leb_spec 2 (ridx j)); [lia|]. cbn [b2z]. destruct (nkf gs <=? _); lia. }
        destruct (Z.leb_spec 2 (ridx j)); [|lia].
        cbn [b2z]. destruct (Z.leb_spec (nkf gs) (gs + (4 * gidx j + (ridx j - 2 + 1)))); lia.
      * lia.
Qed.

Lemma pos_valid_below i k : (k <= i)%nat -> snd (pos i) < L -> snd (pos k) < L.
Proof.
  induction 1 as [|i Hk IH]; [auto|]. intros H. apply IH. pose proof (pos_gs_mono i). lia.
Qed.
Lemma sb_mono i k : (k <= i)%nat -> (forall m, (m < i)%nat -> snd (pos m) < L) -> sb k <= sb i.
Proof.
  induction 1 as [|i Hk IH]; [lia|]. intros H. rewrite sb_S by (apply H; lia).
  assert (0 <= b2z (shown (entry i))) by (destruct (shown _); cbn; lia).
  specialize (IH ltac:(intros m Hm; apply H; lia)). lia.
Qed.
Lemma sb_0 : sb 0 = 0. Proof. reflexivity. Qed.

(** The frame built last before position [i] (pre-switch coordinates) is the
    last shown one whenever a group starts. *)
Fixpoint lst (i : nat) : Z :=
  match i with
  | O => 0
  | S k => match entry k with Some fi => fi_input fi | None => lst k end
  end.
Lemma lst_sb i : snd (pos i) < L ->
  let gs := snd (pos i) in let j := Z.of_nat (S i) - fst (pos i) in
  ridx j = 0 \/ depth < ridx j -> lst (S i) = sbf gs j - 1.
Proof.
  induction i as [|i IH]; intros HL gs j Hr.
  - change (lst 1) with 0. unfold gs, j. change (Z.of_nat 1 - fst (pos 0)) with 1. change (snd (pos 0)) with 0 in *.
    destruct (nkf_spec 0 ltac:(lia) gstart_0) as [H5 H6]. unfold sbf. cbn [Z.eqb].
    destruct step_first as [-> ->].
    clear - H5. destruct cases_mode as [(_ & E1 & E2 & _)|(_ & E1 & E2 & _)]; rewrite ?E1, ?E2 in *; lia.
  - destruct (pos_facts (S i)) as (Hgo & Hgs & H). destruct (H HL) as (Hg & Hgo6 & Hrm).
    destruct (nkf_spec gs ltac:(unfold gs; lia) Hg) as [H5 H6]. fold gs in Hg, Hrm.
    change (lst (S (S i))) with (match entry (S i) with Some fi => fi_input fi | None => lst (S i) end).
    assert (Hj0 : Z.of_nat (S i) - fst (pos (S i)) = j - 1) by (unfold j; lia).
    destruct (entry (S i)) as [fi|] eqn:Ee.
    + assert (HS := sb_S (S i) HL). rewrite Ee in HS. cbn [shown] in HS.
      destruct (entry_input (S i) fi HL Ee) as (Hin & Hb & Hsh). fold gs in Hin. rewrite Hj0 in Hin, Hrm.
      assert (Hsbj : sb (S (S i)) = sbf gs j).
      { unfold sb. destruct (pos_S_cases (S i)) as [(Ha & E)|(Ha & E)]; rewrite E; cbn [fst snd].
        - fold gs in Ha |- *. fold j in Ha. rewrite Z.sub_diag. unfold sbf. cbn [Z.eqb].
          unfold adv in Ha. apply andb_true_iff in Ha. destruct Ha as [Ha1 Ha2].
          apply Z.eqb_eq in Ha1. assert (G := gidx_nonneg j ltac:(unfold j; lia)).
          rewrite H6 in Ha2 by (destruct cases_mode as [(_ & _ & -> & _)|(_ & _ & -> & _)]; lia).
          rewrite Ha1. destruct (Z.eqb_spec j 0); [unfold j in *; lia|].
          clear - Ha2 Hgs. destruct cases_mode as [(_ & E1 & E2 & _)|(_ & E1 & E2 & _)]; rewrite ?E1, ?E2 in *; lia.
        - reflexivity. }
      rewrite <- Hsbj, HS. destruct (fi_show fi) eqn:Es.
      * cbn [b2z]. rewrite Hsh by reflexivity. lia.
      * exfalso. unfold entry, entry_at in Ee. fold gs in Ee. rewrite Hj0 in Ee.
        destruct (Z.eqb_spec (j - 1) 0); [injection Ee as <-; discriminate|].
        destruct (ends _ _); [discriminate|]. injection Ee as <-. change (fi_show _) with (depth <=? ridx (j - 1)) in Es.
        assert (Hp : 1 <= j - 1) by lia. assert (Hq := ridx_range (j - 1)).
        destruct (Z.eq_dec (ridx (j - 1) + 1) OL) as [En|En].
        -- destruct cases_mode as [(_ & E1 & E2 & E3)|(_ & E1 & E2 & E3)]; rewrite ?E1, ?E2, ?E3 in *; lia.
        -- destruct (step_same (j - 1) Hp ltac:(lia)) as [E1 _]. replace (j - 1 + 1) with j in E1 by lia. lia.
    + (* placeholder: not the first frame of the GOP, not index [depth] *)
      unfold entry, entry_at in Ee. fold gs in Ee. rewrite Hj0 in Ee, Hrm.
      destruct (Z.eqb_spec (j - 1) 0) as [|Hne]; [discriminate|].
      assert (Hp : 1 <= j - 1) by lia. specialize (Hrm Hp).
      destruct (ends gs (inputz gs (j - 1))) eqn:Een; [|discriminate].
      assert (Hlb := hintz_lb (j - 1) Hp). assert (Hig := ILg (j - 1) Hp).
      assert (Hih : inputz gs (j - 1) = gs + hintz (j - 1)) by (unfold inputz; destruct (Z.eqb_spec (j - 1) 0); lia).
      rewrite H6 in Een by lia. rewrite Hih in Een. clear Ee.
      assert (Hq := ridx_range (j - 1)).
      assert (Epos : pos (S i) = pos i).
      { destruct (pos_S_cases i) as [(Ha & E)|(Ha & E)].
        - exfalso. rewrite E in Hj0. cbn [fst] in Hj0. lia.
        - rewrite E. destruct (pos i); reflexivity. }
      assert (Hd : depth < ridx (j - 1)).
      { unfold hintz in Een, Hlb.
        destruct cases_mode as [(_ & E1 & E2 & E3)|(_ & E1 & E2 & E3)]; rewrite ?E1, ?E2, ?E3 in *.
        - destruct (Z.eq_dec (ridx (j - 1) + 1) 6) as [En|En]; [lia|].
          destruct (step_same (j - 1) Hp ltac:(rewrite E3; lia)) as [E4 _]. replace (j - 1 + 1) with j in E4 by lia.
          destruct (Z.ltb_spec (ridx (j - 1)) 2); lia.
        - destruct (Z.ltb_spec (ridx (j - 1)) 0); lia. }
      rewrite IH; [|rewrite <- Epos; exact HL| rewrite <- Epos, Hj0; right; exact Hd].
      rewrite <- Epos. fold gs. rewrite Hj0. f_equal. unfold sbf.
      destruct (Z.eqb_spec (j - 1) 0); [lia|]. destruct (Z.eqb_spec j 0); [lia|].
      unfold hintz in Een.
      destruct (Z.eq_dec (ridx (j - 1) + 1) OL) as [En|En].
      * destruct (step_next (j - 1) Hp En) as [E4 E5]. replace (j - 1 + 1) with j in * by lia. rewrite E4, E5.
        destruct cases_mode as [(_ & E1 & E2 & E3)|(_ & E1 & E2 & E3)]; rewrite ?E1, ?E2, ?E3 in *.
        -- destruct (Z.ltb_spec (ridx (j - 1)) 2); lia.
        -- lia.
      * destruct (step_same (j - 1) Hp ltac:(lia)) as [E4 E5]. replace (j - 1 + 1) with j in * by lia. rewrite E4, E5.
        destruct cases_mode as [(_ & E1 & E2 & E3)|(_ & E1 & E2 & E3)]; rewrite ?E1, ?E2, ?E3 in *.
        -- destruct (Z.ltb_spec (ridx (j - 1)) 2); lia.
        -- lia.
Qed.

Variable opq : Z -> option Z.

(** Reference slots after the first [i] output frames. *)
Fixpoint dpb (mk : Z -> Z -> pic) (i : nat) : slots :=
  match i with
  | O => no_slots
  | S k =>
      match entry k with
      | Some fi =>
          if fi_sef fi then dpb mk k
          else refresh (fi_refresh fi) (RefFrame (fi_hint fi) (Z.of_nat k) (mk (fi_input fi) (Z.of_nat k)))
                 (dpb mk k)
      | None => dpb mk k
      end
  end.
Definition real := dpb Recon.
Definition src := dpb (fun n _ => Source n).

(** What is emitted for output frame [i]: the pending data and packets so far. *)
Definition frame_obus (i : nat) (fi : finfo) : list obu :=
  let h := header_of c (FData fi (real i) [] [] None) in
  (if is_key (fi_type fi) then [OSequence] else []) ++ map OT35 (fi_t35 fi) ++
  [if fi_sef fi then OFrameHeader h
   else OFrame h (Payload (fi_input fi) (Z.of_nat i)
          (if is_key (fi_type fi) then []
           else map (fun r => match slot (real i) r with Some f => Some (rf_pic f) | None => None end) (fi_refs fi))
          (if is_key (fi_type fi) then [] else sign_bias c (real i) (fi_refs fi) (fi_hint fi))
          (if is_key (fi_type fi) then no_slots else real i))].
Definition frame_pic (i : nat) (fi : finfo) : option pic :=
  if fi_sef fi then match slot (real i) (fi_map_idx fi) with Some r => Some (rf_pic r) | None => None end
  else Some (Recon (fi_input fi) (Z.of_nat i)).
Fixpoint pending (i : nat) : list obu :=
  match i with
  | O => [OTemporalDelimiter]
  | S k =>
      match entry k with
      | Some fi => if fi_show fi then [OTemporalDelimiter] else pending k ++ frame_obus k fi
      | None => pending k
      end
  end.
Definition packet_of (i : nat) (fi : finfo) : packet :=
  Packet (pending i ++ frame_obus i fi) (frame_pic i fi) (fi_input fi) (fi_input fi) (fi_type fi)
         (opq (fi_input fi)).
Fixpoint packets (i : nat) : list packet :=
  match i with
  | O => []
  | S k =>
      packets k ++ match entry k with
                   | Some fi => if fi_show fi then [packet_of k fi] else []
                   | None => []
                   end
  end.

End Plan.
