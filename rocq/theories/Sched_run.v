(** Whole histories of API calls. *)
From Verif Require Import Base SMap Sched_model Sched_plan Sched_inv Sched_shape Sched_step Sched_recv Sched_spec.

Lemma packets_of_app a b : packets_of (a ++ b) = packets_of a ++ packets_of b.
Proof. induction a as [|x a IH]; [reflexivity|]. destruct x; cbn; rewrite ?IH; reflexivity. Qed.
Lemma count_from_app n m : forall a, count_from a (n + m) = count_from a n ++ count_from (a + Z.of_nat n) m.
Proof.
  induction n as [|n IH]; intros a; cbn [count_from plus app].
  - change (Z.of_nat 0) with 0. rewrite Z.add_0_r. reflexivity.
  - rewrite IH. f_equal. f_equal. f_equal. lia.
Qed.

Lemma nth_error_ext' {A} (l m : list A) : (forall n, nth_error l n = nth_error m n) -> l = m.
Proof.
  revert m. induction l as [|x l IH]; intros m H.
  - destruct m as [|y m]; [reflexivity|]. specialize (H 0%nat). discriminate.
  - destruct m as [|y m]; [specialize (H 0%nat); discriminate|]. assert (H0 := H 0%nat). injection H0 as ->. f_equal. apply IH.
    intros n. exact (H (S n)).
Qed.
Lemma nth_error_seq n : forall a k, (k < n)%nat -> nth_error (seq a n) k = Some (a + k)%nat.
Proof.
  induction n as [|n IH]; intros a k Hk; [lia|]. destruct k as [|k]; cbn; [f_equal; lia|]. rewrite IH by lia. f_equal. lia.
Qed.
Lemma nth_error_firstn' {A} (l : list A) : forall n k, (k < n)%nat -> nth_error (firstn n l) k = nth_error l k.
Proof.
  induction l as [|x l IH]; intros n k H; [rewrite firstn_nil; reflexivity|]. destruct n as [|n]; [lia|]. destruct k as [|k]; [reflexivity|].
  cbn. apply IH. lia.
Qed.

Section Run.
Variable c : config.
Variable scene : Z -> bool.
Variable ps : list (option params).
Hypothesis Hc : legal c.
Hypothesis Hfit : fits ps.

Lemma Hps : zlen ps < 2 ^ 31.
Proof. unfold fits in Hfit. lia. Qed.
Notation iskey := (keyf scene ps).
Notation L := (zlen ps).
Notation pos := (Sched_plan.pos c iskey L).
Notation sb := (Sched_plan.sb c iskey L).
Notation packets := (Sched_plan.packets c iskey L (t35f ps) (opqf ps)).
Notation entry := (Sched_plan.entry c iskey L (t35f ps)).
Notation Inv := (Inv c scene ps).

(** The frames still to come. *)
Definition remaining (fc : Z) (l : list call) : list (option params) :=
  if cf_still c then firstn (1 - Z.to_nat fc) (sends l) else sends l.

Lemma skipn_nth {A} (l : list A) n x r : skipn n l = x :: r -> nth_error l n = Some x /\ skipn (S n) l = r /\ (n < length l)%nat.
Proof.
  revert l. induction n as [|n IH]; intros l H.
  - destruct l as [|y l]; [discriminate|]. injection H as -> ->. repeat split. cbn. lia.
  - destruct l as [|y l]; [discriminate|]. cbn in H |- *. destruct (IH l H) as (H1 & H2 & H3). repeat split; [exact H1|exact H2|lia].
Qed.

Lemma run_ok : forall l s e, Inv s e ->
  (s_flushing s = false -> skipn (Z.to_nat (s_frame_count s)) ps = remaining (s_frame_count s) l) ->
  exists s' rs e', run scene c s l = Some (s', rs) /\ Inv s' e' /\ (e <= e')%nat /\
    packets e' = packets e ++ packets_of rs /\
    s_flushing s' = s_flushing s || flushed l /\ s_frame_count s' = L.
Proof.
  induction l as [|k l IH]; intros s e HI Hrem.
  - exists s, [], e. split; [reflexivity|]. split; [exact HI|]. split; [lia|]. split; [cbn; rewrite app_nil_r; reflexivity|].
    split; [cbn; rewrite orb_false_r; reflexivity|].
    destruct HI as (fl & lo & o & ds & I & _). assert (Hfc := b_fc _ _ _ _ _ _ _ _ _ I).
    destruct (s_flushing s) eqn:Hf; [apply (b_flk _ _ _ _ _ _ _ _ _ I Hf)|].
    specialize (Hrem eq_refl). assert (E : remaining (s_frame_count s) [] = []) by (unfold remaining; destruct (cf_still c); [apply firstn_nil|reflexivity]).
    rewrite E in Hrem. assert (Hl := f_equal (@length _) Hrem). rewrite skipn_length in Hl. cbn in Hl. unfold zlen in *. lia.
  - (* it suffices to do one call *)
    assert (Step : forall s1 e1 r, do_call scene c s k = Some (s1, r) -> Inv s1 e1 -> (e <= e1)%nat ->
        packets e1 = packets e ++ packets_of [r] ->
        s_flushing s1 = s_flushing s || match k with Flush => true | _ => false end ->
        (s_flushing s1 = false -> skipn (Z.to_nat (s_frame_count s1)) ps = remaining (s_frame_count s1) l) ->
        exists s' rs e', run scene c s (k :: l) = Some (s', rs) /\ Inv s' e' /\ (e <= e')%nat /\
          packets e' = packets e ++ packets_of rs /\
          s_flushing s' = s_flushing s || flushed (k :: l) /\ s_frame_count s' = L).
    { intros s1 e1 r E1 HI1 He1 Hpk Hf1 Hrem1. destruct (IH s1 e1 HI1 Hrem1) as (s' & rs & e' & E2 & HI2 & He2 & Hpk2 & Hf2 & Hfc2).
      exists s', (r :: rs), e'. cbn [run]. rewrite E1, E2. split; [reflexivity|]. split; [exact HI2|]. split; [lia|].
      split; [change (r :: rs) with ([r] ++ rs); rewrite packets_of_app, app_assoc, <- Hpk; exact Hpk2|].
      split; [|exact Hfc2]. rewrite Hf2, Hf1. unfold flushed. cbn [existsb]. rewrite orb_assoc. reflexivity. }
    destruct k as [p| |ready].
    + cbn [do_call] in *. unfold send_frame in *.
      destruct (s_flushing s || (cf_still c && (0 <? s_frame_count s))) eqn:Eref.
      * apply (Step s e (RStatus EnoughData)); try reflexivity; try assumption; [cbn; rewrite app_nil_r; reflexivity|rewrite orb_false_r; reflexivity|].
        intros Hf. rewrite (Hrem Hf). rewrite Hf in Eref. cbn [orb] in Eref. apply andb_true_iff in Eref. destruct Eref as [E1 E2].
        apply Z.ltb_lt in E2. unfold remaining. rewrite E1. replace (1 - Z.to_nat (s_frame_count s))%nat with 0%nat by lia. reflexivity.
      * apply orb_false_iff in Eref. destruct Eref as [Hf Est]. specialize (Hrem Hf).
        assert (E1 : remaining (s_frame_count s) (Send p :: l) = p :: remaining (s_frame_count s + 1) l).
        { unfold remaining. cbn [sends]. destruct (cf_still c); [|reflexivity]. cbn [andb] in Est.
          destruct HI as (fl & lo & o & ds & I & _). assert (Hfc := b_fc _ _ _ _ _ _ _ _ _ I).
          apply Z.ltb_ge in Est. replace (s_frame_count s) with 0 by lia. reflexivity. }
        rewrite E1 in Hrem. destruct (skipn_nth _ _ _ _ Hrem) as (Hn & Hsk & Hlt).
        assert (Hfc0 : 0 <= s_frame_count s).
        { destruct HI as (fl & lo & o & ds & I & _). assert (Hfc := b_fc _ _ _ _ _ _ _ _ _ I). lia. }
        assert (HltL : s_frame_count s < L) by (unfold zlen; lia).
        destruct (Z.eqb_spec (s_frame_count s) 2147483646) as [E5|E5]; [unfold fits in Hfit; lia|].
        destruct (send_ok c scene ps Hc Hps s e p HI Hf HltL Hn) as (s' & E2 & HI2 & Hf2 & Hfc2).
        rewrite E2 in Step. apply (Step s' e RSent); try reflexivity; try assumption; [cbn; rewrite app_nil_r; reflexivity|rewrite Hf2, Hf; reflexivity|].
        intros _. rewrite Hfc2. replace (Z.to_nat (s_frame_count s + 1)) with (S (Z.to_nat (s_frame_count s))) by lia. exact Hsk.
    + cbn [do_call] in *. unfold flush in *. destruct (s_flushing s) eqn:Hf.
      * apply (Step s e RSent); try reflexivity; try assumption; [cbn; rewrite app_nil_r; reflexivity|].
        intros Hf2. congruence.
      * specialize (Hrem eq_refl).
        assert (HfcL : s_frame_count s = L).
        { assert (E : remaining (s_frame_count s) (Flush :: l) = []) by (unfold remaining; cbn [sends]; destruct (cf_still c); [apply firstn_nil|reflexivity]).
          rewrite E in Hrem. destruct HI as (fl & lo & o & ds & I & _). assert (Hfc := b_fc _ _ _ _ _ _ _ _ _ I).
          assert (Hl := f_equal (@length _) Hrem). rewrite skipn_length in Hl. cbn in Hl. unfold zlen in *. lia. }
        destruct (flush_ok c scene ps Hc Hps s e HI Hf HfcL) as (s' & E2 & HI2 & Hf2 & Hfc2).
        rewrite E2 in Step. apply (Step s' e RSent); try reflexivity; try assumption; [cbn; rewrite app_nil_r; reflexivity|].
        intros Hf3. congruence.
    + cbn [do_call] in *. destruct (receive_ok c scene ps Hc Hps s e ready HI) as (s' & r & e' & E2 & HI2 & Hf2 & Hfc2 & He2 & Hpk2 & Hcase).
      apply (Step s' e' r); try assumption; [rewrite Hf2, orb_false_r; reflexivity|].
      rewrite Hf2, Hfc2. intros Hf. rewrite (Hrem Hf). reflexivity.
Qed.

(** ** The plan's packets *)
Definition valid (e : nat) : Prop := forall i, (i < e)%nat -> snd (pos i) < L.
Lemma Inv_valid s e : Inv s e -> valid e.
Proof.
  intros (fl & lo & o & ds & I & _) i Hi. pose proof (b_lo _ _ _ _ _ _ _ _ _ I) as (_ & Heo). apply (b_valid _ _ _ _ _ _ _ _ _ I). lia.
Qed.
Lemma valid_S e : valid (S e) -> valid e.
Proof. intros H i Hi. apply H. lia. Qed.

Lemma sb_nonneg e : valid e -> 0 <= sb e.
Proof.
  intros H. change 0 with (sb 0). apply sb_mono; [exact (t35f ps)|lia|exact H].
Qed.
Lemma packets_len e : valid e -> zlen (packets e) = sb e.
Proof.
  induction e as [|e IH]; intros H; [reflexivity|]. cbn [Sched_plan.packets]. rewrite zlen_app, IH by (apply valid_S; exact H).
  rewrite (sb_S c iskey L (t35f ps)) by (apply H; lia). destruct (entry e) as [fi|]; [|reflexivity].
  cbn [shown]. destruct (fi_show fi); reflexivity.
Qed.
Lemma packets_in e : valid e -> forall n p, nth_error (packets e) n = Some p ->
  exists i fi, (i < e)%nat /\ entry i = Some fi /\ fi_show fi = true /\ fi_input fi = Z.of_nat n /\ sb i = Z.of_nat n /\
    packets i = firstn n (packets e) /\ p = packet_of c iskey L (t35f ps) (opqf ps) i fi.
Proof.
  induction e as [|e IH]; intros H n p Hn; [destruct n; discriminate|].
  assert (Hl := packets_len e (valid_S _ H)). cbn [Sched_plan.packets] in *.
  destruct (Nat.lt_ge_cases n (length (packets e))) as [Hlt|Hge].
  - rewrite nth_error_app1 in Hn by exact Hlt. destruct (IH (valid_S _ H) n p Hn) as (i & fi & H1 & H2 & H3 & H4 & H5 & H6 & H7).
    exists i, fi. split; [lia|]. rewrite firstn_app. replace (n - length (packets e))%nat with 0%nat by lia.
    cbn [firstn]. rewrite app_nil_r. auto 7.
  - rewrite nth_error_app2 in Hn by exact Hge. destruct (entry e) as [fi|] eqn:Ee; [|destruct (n - _)%nat; discriminate].
    destruct (fi_show fi) eqn:Es; [|destruct (n - _)%nat; discriminate].
    destruct (n - length (packets e))%nat as [|m] eqn:En; [|destruct m; discriminate]. injection Hn as <-.
    assert (HL := H e ltac:(lia)). destruct (entry_input c iskey L Hps (t35f ps) e fi HL Ee) as (_ & _ & Hin). specialize (Hin Es).
    change (Z.of_nat (length (packets e)) = sb e) in Hl. exists e, fi. split; [lia|]. split; [exact Ee|]. split; [exact Es|]. split; [lia|]. split; [lia|]. split; [|reflexivity].
    rewrite firstn_app, En. cbn [firstn]. rewrite app_nil_r. symmetry. apply firstn_all2. lia.
Qed.
Lemma packets_inputs e : valid e -> map p_input (packets e) = count_from 0 (length (packets e)).
Proof.
  induction e as [|e IH]; intros H; [reflexivity|]. assert (Hl := packets_len e (valid_S _ H)). cbn [Sched_plan.packets].
  rewrite map_app, app_length, count_from_app, IH by (apply valid_S; exact H). f_equal.
  destruct (entry e) as [fi|] eqn:Ee; [|reflexivity]. destruct (fi_show fi) eqn:Es; [|reflexivity].
  assert (HL := H e ltac:(lia)). destruct (entry_input c iskey L Hps (t35f ps) e fi HL Ee) as (_ & _ & Hin). specialize (Hin Es).
  cbn [map length count_from packet_of p_input]. change (Z.of_nat (length (packets e)) = sb e) in Hl. f_equal. lia.
Qed.
Lemma valid_sb e : valid e -> 0 <= sb e <= L.
Proof.
  intros Hv. split; [apply sb_nonneg; exact Hv|]. destruct e as [|e]; [change (sb 0) with 0; apply zlen_nonneg|].
  destruct (Z_lt_le_dec (snd (pos (S e))) L) as [Hlt|Hge].
  - destruct (sb_le_L c iskey L (S e) Hlt); lia.
  - rewrite sb_end; [lia|apply Hv; lia|exact Hge].
Qed.
(** Packets only get appended. *)
Lemma packets_prefix a b : (a <= b)%nat -> exists t, packets b = packets a ++ t.
Proof.
  induction 1 as [|b H [t IH]]; [exists []; rewrite app_nil_r; reflexivity|].
  cbn [Sched_plan.packets]. rewrite IH, <- app_assoc. eauto.
Qed.

(** ** After the flush *)
Fixpoint readies (l : list call) : Z :=
  match l with [] => 0 | Receive true :: r => 1 + readies r | _ :: r => readies r end.
Lemma drain : forall l s e, Inv s e -> s_flushing s = true ->
  exists s' rs e', run scene c s l = Some (s', rs) /\ Inv s' e' /\ s_flushing s' = true /\ (e <= e')%nat /\
    packets e' = packets e ++ packets_of rs /\ (sb e' = L \/ Z.of_nat e + readies l <= Z.of_nat e').
Proof.
  induction l as [|k l IH]; intros s e HI Hf.
  - exists s, [], e. cbn. rewrite app_nil_r. split; [reflexivity|]. split; [exact HI|]. repeat split; [exact Hf|lia|right; lia].
  - assert (Same : forall r, do_call scene c s k = Some (s, r) -> packets_of [r] = [] -> readies (k :: l) = readies l ->
      exists s' rs e', run scene c s (k :: l) = Some (s', rs) /\ Inv s' e' /\ s_flushing s' = true /\ (e <= e')%nat /\
      packets e' = packets e ++ packets_of rs /\ (sb e' = L \/ Z.of_nat e + readies (k :: l) <= Z.of_nat e')).
    { intros r E1 E2 E3. destruct (IH s e HI Hf) as (s' & rs & e' & H1 & H2 & H3 & H4 & H5 & H6).
      exists s', (r :: rs), e'. cbn [run]. rewrite E1, H1, E3. change (r :: rs) with ([r] ++ rs). rewrite packets_of_app, E2. auto 7. }
    destruct k as [p| |ready].
    + apply (Same (RStatus EnoughData)); [|reflexivity|reflexivity]. cbn [do_call]. unfold send_frame. rewrite Hf. reflexivity.
    + apply (Same RSent); [|reflexivity|reflexivity]. cbn [do_call]. unfold flush. rewrite Hf. reflexivity.
    + destruct (receive_ok c scene ps Hc Hps s e ready HI) as (s1 & r & e1 & E2 & HI2 & Hf2 & Hfc2 & He2 & Hpk2 & Hcase).
      rewrite Hf in Hf2. destruct (IH s1 e1 HI2 Hf2) as (s' & rs & e' & H1 & H2 & H3 & H4 & H5 & H6).
      exists s', (r :: rs), e'. cbn [run do_call]. rewrite E2, H1. split; [reflexivity|]. split; [exact H2|]. split; [exact H3|]. split; [lia|].
      split; [change (r :: rs) with ([r] ++ rs); rewrite packets_of_app, app_assoc; change (packets_of [r]) with (pk r); rewrite <- Hpk2; exact H5|].
      destruct H6 as [H6|H6]; [left; exact H6|].
      assert (D : (e < e1)%nat \/ ready = false \/ sb e = L).
      { destruct r as [|p|[]]; cbn in Hcase; try contradiction; try tauto. destruct Hcase as [Hx _]. congruence. }
      cbn [readies]. destruct D as [D|[->|D]].
      * right. destruct ready; lia.
      * right. lia.
      * left. assert (Hm : sb e <= sb e') by (apply sb_mono; [exact (t35f ps)|lia|exact (Inv_valid _ _ H2)]).
        assert (Hu := valid_sb e' (Inv_valid _ _ H2)). lia.
Qed.
Lemma e_bound s e : Inv s e -> s_frame_count s = L -> Z.of_nat e <= 6 * L + 7.
Proof.
  intros (fl & lo & o & ds & I & _) Hfc. pose proof (b_lo _ _ _ _ _ _ _ _ _ I) as (_ & Heo).
  destruct o as [|o]; [assert (H := zlen_nonneg _ ps); lia|]. assert (H := b_bound _ _ _ _ _ _ _ _ _ I o ltac:(lia)). lia.
Qed.
Lemma limit_reached s e ready : Inv s e -> s_flushing s = true -> sb e = L ->
  receive_packet c s ready = Some (s, RStatus LimitReached).
Proof.
  intros (fl & lo & o & ds & I & _) Hf HL. unfold receive_packet.
  rewrite (b_lim _ _ _ _ _ _ _ _ _ I), (b_proc _ _ _ _ _ _ _ _ _ I), Hf, HL, Z.eqb_refl. reflexivity.
Qed.

(** ** Key frames *)
Lemma key_iff i fi : snd (pos i) < L -> entry i = Some fi ->
  is_key (fi_type fi) = (Sched_plan.gstart c iskey (fi_input fi) =? fi_input fi).
Proof.
  intros HL Ee. destruct (pos_facts c iskey L i) as (Hgo & Hgs & HP). destruct (HP HL) as (Hg & _ & Hrm).
  destruct (is_key (fi_type fi)) eqn:Hk.
  - assert (Hin : fi_input fi = snd (pos i)).
    { destruct (entry_key c scene ps i fi Ee Hk) as (Hi & _). destruct (entry_input c iskey L Hps (t35f ps) i fi HL Ee) as (E & _).
      rewrite E. unfold inputz. rewrite <- Hi, Z.sub_diag. reflexivity. }
    rewrite Hin, Hg, Z.eqb_refl. reflexivity.
  - destruct (entry_shape c scene ps Hc Hps i fi HL Ee Hk) as [Hj _].
    destruct (entry_input c iskey L Hps (t35f ps) i fi HL Ee) as (E & _).
    unfold Sched_plan.entry, entry_at in Ee. destruct (Z.eqb_spec (Z.of_nat i - fst (pos i)) 0) as [E0|E0]; [lia|].
    rewrite <- E in Ee. destruct (Sched_plan.ends c iskey L (snd (pos i)) (fi_input fi)) eqn:Een; [discriminate|].
    unfold Sched_plan.ends in Een. apply orb_false_iff in Een. destruct Een as [_ Een]. apply negb_false_iff, Z.eqb_eq in Een.
    rewrite Een. symmetry. apply Z.eqb_neq. rewrite E. unfold inputz. destruct (Z.eqb_spec (Z.of_nat i - fst (pos i)) 0); [lia|].
    assert (Hlb := hintz_lb c iskey _ Hj). assert (HIg := ILg c iskey _ Hj). lia.
Qed.
Lemma key_pattern_gstart want : (forall n, want n = iskey (Z.of_nat n)) -> forall len n, (1 <= n)%nat ->
  key_pattern (cf_max_kf c) want n (Z.of_nat n - Sched_plan.gstart c iskey (Z.of_nat n - 1)) len =
  map (fun k => Sched_plan.gstart c iskey (Z.of_nat k) =? Z.of_nat k) (seq n len).
Proof.
  intros Hw. induction len as [|len IH]; intros n Hn; [reflexivity|]. cbn [key_pattern seq map].
  assert (Hs := gstart_succ c iskey (Z.of_nat n - 1) ltac:(lia)). replace (Z.of_nat n - 1 + 1) with (Z.of_nat n) in Hs by lia.
  assert (Hle := gstart_le c iskey (Z.of_nat n - 1) ltac:(lia)). rewrite Hw.
  set (b := iskey (Z.of_nat n) || _) in *.
  assert (Ek : b = (Sched_plan.gstart c iskey (Z.of_nat n) =? Z.of_nat n)).
  { rewrite Hs. destruct b; symmetry; [apply Z.eqb_refl|apply Z.eqb_neq; lia]. }
  f_equal; [exact Ek|]. rewrite <- IH by lia. f_equal. replace (Z.of_nat (S n) - 1) with (Z.of_nat n) by lia. rewrite Hs. destruct b; lia.
Qed.
Lemma key_pattern_all want : (forall n, want n = iskey (Z.of_nat n)) -> forall len,
  key_pattern (cf_max_kf c) want 0 (cf_max_kf c) len = map (fun k => Sched_plan.gstart c iskey (Z.of_nat k) =? Z.of_nat k) (seq 0 len).
Proof.
  intros Hw [|len]; [reflexivity|]. cbn [key_pattern seq map]. rewrite Z.leb_refl, orb_true_r. f_equal.
  assert (H := key_pattern_gstart want Hw len 1 ltac:(lia)). change (Z.of_nat 1 - 1) with 0 in H. rewrite gstart_0, Z.sub_0_r in H. exact H.
Qed.
Lemma packets_types e : valid e -> map (fun p => is_key (p_type p)) (packets e) =
  map (fun k => Sched_plan.gstart c iskey (Z.of_nat k) =? Z.of_nat k) (seq 0 (length (packets e))).
Proof.
  intros Hv. apply nth_error_ext'. intros n. rewrite !nth_error_map.
  destruct (nth_error (packets e) n) as [p|] eqn:En.
  - destruct (packets_in e Hv n p En) as (i & fi & Hi & Ee & _ & Hin & _ & _ & ->).
    assert (Hn : (n < length (packets e))%nat) by (apply nth_error_Some; congruence).
    rewrite nth_error_seq by exact Hn. cbn [option_map packet_of p_type]. rewrite (key_iff i fi (Hv i Hi) Ee), Hin. reflexivity.
  - apply nth_error_None in En. assert (E : nth_error (seq 0 (length (packets e))) n = None) by (apply nth_error_None; rewrite seq_length; exact En).
    rewrite E. reflexivity.
Qed.
End Run.
