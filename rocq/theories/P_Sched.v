(** Properties C10-C17 and C45-C48: the encoder front end over whole histories
    of API calls.  Every theorem is about an arbitrary list of calls, an
    arbitrary legal configuration and arbitrary scene-cut answers. *)
From Verif Require Import Base SMap Sched_model Sched_plan Sched_inv Sched_shape Sched_step Sched_recv Sched_spec Sched_run Sched_dec Sched_lat.

(** ** The invariant of a history *)
Section Hist.
Variable c : config.
Variable scene : Z -> bool.
Variable calls : list call.
Notation ps := (accepted (cf_still c) calls).
Hypothesis Hc : legal c.
Hypothesis Hfit : fits ps.
Notation plan := (Sched_plan.packets c (keyf scene ps) (zlen ps) (t35f ps) (opqf ps)).

Lemma history : exists s rs e, run scene c init calls = Some (s, rs) /\ Inv c scene ps s e /\
  plan e = packets_of rs /\ s_flushing s = flushed calls /\ s_frame_count s = zlen ps.
Proof.
  destruct (run_ok c scene ps Hc Hfit calls init 0%nat (Inv_init c scene ps)) as (s & rs & e & H1 & H2 & _ & H3 & H4 & H5).
  - intros _. change (Z.to_nat (s_frame_count init)) with 0%nat. cbn [skipn]. unfold remaining, accepted.
    change (1 - Z.to_nat (s_frame_count init))%nat with 1%nat. reflexivity.
  - exists s, rs, e. cbn [Sched_plan.packets app] in H3. auto.
Qed.
Lemma history_of s rs : run scene c init calls = Some (s, rs) -> exists e, Inv c scene ps s e /\
  plan e = packets_of rs /\ s_flushing s = flushed calls /\ s_frame_count s = zlen ps.
Proof. intros H. destruct history as (s' & rs' & e & E & HI). rewrite E in H. injection H as <- <-. exists e. exact HI. Qed.
End Hist.

Lemma firstn_seq a m : forall k, (k <= m)%nat -> firstn k (seq a m) = seq a k.
Proof.
  revert a. induction m as [|m IH]; intros a k Hk; [replace k with 0%nat by lia; reflexivity|].
  destruct k as [|k]; [reflexivity|]. cbn [seq firstn]. rewrite IH by lia. reflexivity.
Qed.
Lemma sends_flushed l m : flushed l = true -> sends (l ++ m) = sends l.
Proof. induction l as [|k l IH]; [discriminate|]. destruct k; cbn; intros H; rewrite ?IH by exact H; reflexivity. Qed.
Lemma accepted_flushed b l m : flushed l = true -> accepted b (l ++ m) = accepted b l.
Proof. intros H. unfold accepted. rewrite (sends_flushed l m H). reflexivity. Qed.
Lemma run_app scene c l m : forall s, run scene c s (l ++ m) =
  match run scene c s l with
  | None => None
  | Some (s', a) => match run scene c s' m with None => None | Some (s'', b) => Some (s'', a ++ b) end
  end.
Proof.
  induction l as [|k l IH]; intros s; cbn [app run].
  - destruct (run scene c s m) as [[s' b]|]; reflexivity.
  - destruct (do_call scene c s k) as [[s1 r]|]; [|reflexivity]. rewrite IH. destruct (run scene c s1 l) as [[s2 a]|]; [|reflexivity].
    destruct (run scene c s2 m) as [[s3 b]|]; reflexivity.
Qed.

(** A history used in the examples: seven frames in reordering mode, frame 5 a
    requested key frame, every frame with opaque data; flush; then receive. *)
Definition ex_c : config := Config false true 0 false 240 3 true false.
Definition ex_frame (n : Z) : option params := Some (Params (n =? 5) (Some (100 + n)) [n]).
Definition ex_calls : list call :=
  map (fun n => Send (ex_frame n)) (zseq 0 3) ++ [Receive true] ++ map (fun n => Send (ex_frame n)) (zseq 3 4) ++ [Flush].
Definition ex_all : list call := ex_calls ++ repeat (Receive true) 50.
Example ex_legal : legal ex_c. Proof. unfold legal, ex_c. cbn. lia. Qed.
Example ex_fits : fits (accepted (cf_still ex_c) ex_all). Proof. vm_compute. discriminate. Qed.
Definition ex_run : option (st * list result) := Eval vm_compute in run (fun n => n =? 3) ex_c init ex_all.
Example ex_runs : run (fun n => n =? 3) ex_c init ex_all = ex_run. Proof. vm_compute. reflexivity. Qed.
Definition ex_packets : list packet := Eval vm_compute in match ex_run with Some (_, rs) => packets_of rs | None => [] end.
(** Keys at 0, 3 (scene cut) and 5 (requested). *)
Example ex_types : map (fun p => (p_input p, is_key (p_type p))) ex_packets =
  [(0, true); (1, false); (2, false); (3, true); (4, false); (5, true); (6, false)].
Proof. vm_compute. reflexivity. Qed.
(** A longer GOP, with a show-existing packet. *)
Definition ex_long : list call := map (fun n => Send (Some (Params false None [n]))) (zseq 0 11) ++ [Flush] ++ repeat (Receive true) 80.
Definition ex_long_packets : list packet :=
  Eval vm_compute in match run (fun _ => false) ex_c init ex_long with Some (_, rs) => packets_of rs | None => [] end.
Example ex_long_shows : existsb (fun p => existsb (fun o => match o with OFrameHeader _ => true | _ => false end) (p_data p)) ex_long_packets = true.
Proof. vm_compute. reflexivity. Qed.

(** ** C10 *)
(** The packets carry input numbers 0, 1, 2, ... *)
Theorem C10_in_order : forall scene c calls s rs,
  legal c -> fits (accepted (cf_still c) calls) -> run scene c init calls = Some (s, rs) ->
  map p_input (packets_of rs) = count_from 0 (length (packets_of rs)) /\
  (length (packets_of rs) <= length (accepted (cf_still c) calls))%nat.
Proof.
  intros scene c calls s rs Hc Hf H. destruct (history_of c scene calls Hc Hf s rs H) as (e & HI & Hp & _).
  assert (Hv := Inv_valid c scene _ s e HI). rewrite <- Hp. split; [apply packets_inputs; [exact Hf|exact Hv]|].
  assert (Hl := packets_len c scene _ e Hv). assert (Hb := valid_sb c scene _ e Hv). unfold zlen in *. lia.
Qed.
Print Assumptions C10_in_order.
(** Once flushed, 6L + 8 calls of receive_packet that are not refused by rate
    control bring out exactly the accepted frames, whatever else is called in
    between; then LimitReached is all there is, and nothing changes any more. *)
Theorem C10_complete : forall scene c calls more s rs,
  legal c -> fits (accepted (cf_still c) calls) -> flushed calls = true ->
  6 * zlen (accepted (cf_still c) calls) + 8 <= readies more ->
  run scene c init (calls ++ more) = Some (s, rs) ->
  map p_input (packets_of rs) = count_from 0 (length (accepted (cf_still c) calls)) /\
  forall ready, receive_packet c s ready = Some (s, RStatus LimitReached).
Proof.
  intros scene c calls more s rs Hc Hf Hfl Hr H. rewrite run_app in H.
  destruct (history c scene calls Hc Hf) as (s1 & rs1 & e1 & E1 & HI1 & Hp1 & Hf1 & Hc1). rewrite E1 in H. rewrite Hfl in Hf1.
  destruct (drain c scene _ Hc Hf more s1 e1 HI1 Hf1) as (s2 & rs2 & e2 & E2 & HI2 & Hf2 & He & Hp2 & Hd). rewrite E2 in H. injection H as <- <-.
  destruct (history_of c scene (calls ++ more) Hc) with (s := s2) (rs := rs1 ++ rs2) as (_ & _ & _ & _ & Hc2).
  { rewrite accepted_flushed by exact Hfl. exact Hf. }
  { rewrite run_app, E1, E2. reflexivity. }
  rewrite accepted_flushed in Hc2 by exact Hfl.
  assert (Hb := e_bound c scene _ s2 e2 HI2 Hc2). assert (Hsb : sb c (keyf scene (accepted (cf_still c) calls)) (zlen (accepted (cf_still c) calls)) e2 = zlen (accepted (cf_still c) calls)).
  { destruct Hd as [Hd|Hd]; [exact Hd|]. lia. }
  assert (Hv := Inv_valid c scene _ s2 e2 HI2). split.
  - rewrite packets_of_app, <- Hp1, <- Hp2. rewrite packets_inputs by assumption. f_equal.
    assert (Hl := packets_len c scene _ e2 Hv). unfold zlen in *. lia.
  - intros ready. apply (limit_reached c scene _ s2 e2 ready HI2 Hf2 Hsb).
Qed.
Print Assumptions C10_complete.
Example C10_ex : flushed ex_calls = true /\ 6 * zlen (accepted (cf_still ex_c) ex_calls) + 8 <= readies (repeat (Receive true) 50) /\
  ex_all = ex_calls ++ repeat (Receive true) 50 /\ map p_input ex_packets = count_from 0 7.
Proof. vm_compute. repeat split; discriminate. Qed.

(** ** C11 *)
(** No call of any history panics or loops for ever. *)
Theorem C11_no_panic : forall scene c calls,
  legal c -> fits (accepted (cf_still c) calls) -> exists s rs, run scene c init calls = Some (s, rs).
Proof. intros scene c calls Hc Hf. destruct (history c scene calls Hc Hf) as (s & rs & e & H & _). eauto. Qed.
Print Assumptions C11_no_panic.
(** NeedMoreData is reported only before the flush, and then nothing changed:
    the encoder is waiting for a frame or the flush.  NotReady only when rate
    control is not ready.  A call that is not refused before the flush makes
    progress. *)
Theorem C11_need_more : forall scene c calls s rs ready s' r,
  legal c -> fits (accepted (cf_still c) calls) -> run scene c init calls = Some (s, rs) ->
  receive_packet c s ready = Some (s', r) ->
  match r with
  | RStatus NeedMoreData => flushed calls = false /\ s' = s
  | RStatus LimitReached => flushed calls = true /\ s' = s /\ length (packets_of rs) = length (accepted (cf_still c) calls)
  | RStatus NotReady => ready = false
  | RStatus Encoded | RPacket _ => ready = true
  | RStatus EnoughData | RSent => False
  end.
Proof.
  intros scene c calls s rs ready s' r Hc Hf H Hr. destruct (history_of c scene calls Hc Hf s rs H) as (e & HI & Hp & Hfl & _).
  destruct (receive_ok c scene _ Hc (Hps _ Hf) s e ready HI) as (s1 & r1 & e1 & E & _ & _ & _ & _ & _ & Hcase). rewrite E in Hr. injection Hr as <- <-.
  unfold recv_case in Hcase. rewrite Hfl in Hcase. destruct r1 as [|p|[]]; cbn in Hcase; try tauto.
  destruct Hcase as (H1 & H2 & H3). split; [congruence|]. split; [exact H3|].
  assert (Hl := packets_len c scene _ e (Inv_valid c scene _ s e HI)). rewrite Hp in Hl. unfold zlen in *. lia.
Qed.
Print Assumptions C11_need_more.
Example C11_ex : exists s rs s', run (fun _ => false) ex_c init [Send None; Send None] = Some (s, rs) /\
  receive_packet ex_c s true = Some (s', RStatus NeedMoreData).
Proof.
  destruct (C11_no_panic (fun _ => false) ex_c [Send None; Send None] ex_legal) as (s & rs & H); [vm_compute; discriminate|].
  exists s, rs, s. split; [exact H|]. vm_compute in H. injection H as <- _. vm_compute. reflexivity.
Qed.

(** ** C12 *)
(** Key frames are exactly where the request, the scene detector or the interval
    puts them ([key_pattern] is the reference walk over the input). *)
Theorem C12_key_frames : forall scene c calls s rs,
  legal c -> fits (accepted (cf_still c) calls) -> run scene c init calls = Some (s, rs) ->
  map (fun p => is_key (p_type p)) (packets_of rs) =
  firstn (length (packets_of rs))
    (key_pattern (cf_max_kf c) (wants_key scene (accepted (cf_still c) calls)) 0 (cf_max_kf c) (length (accepted (cf_still c) calls))).
Proof.
  intros scene c calls s rs Hc Hf H. destruct (history_of c scene calls Hc Hf s rs H) as (e & HI & Hp & _).
  assert (Hv := Inv_valid c scene _ s e HI). destruct (C10_in_order scene c calls s rs Hc Hf H) as [_ Hle]. rewrite <- Hp in Hle |- *.
  rewrite packets_types by assumption. set (ps := accepted (cf_still c) calls) in *.
  rewrite (key_pattern_all c scene ps).
  - rewrite firstn_map, firstn_seq by exact Hle. reflexivity.
  - intros n. unfold wants_key, keyf, forcedf, par. rewrite Nat2Z.id. destruct (nth_error ps n) as [p|] eqn:En.
    + rewrite (nth_error_nth _ _ None En). reflexivity.
    + rewrite nth_overflow by (apply nth_error_None; exact En). reflexivity.
Qed.
Print Assumptions C12_key_frames.

(** Consequences in plain words: the stream starts with a key frame, a frame
    sent with a key-frame request is one, and every max_key_frame_interval
    consecutive packets contain one. *)
Theorem C12_first_forced_interval : forall scene c calls s rs,
  legal c -> fits (accepted (cf_still c) calls) -> run scene c init calls = Some (s, rs) ->
  (forall p, nth_error (packets_of rs) 0 = Some p -> p_type p = KEY) /\
  (forall n p q, nth_error (packets_of rs) n = Some p -> nth_error (accepted (cf_still c) calls) n = Some (Some q) ->
     pr_key q = true -> p_type p = KEY) /\
  (forall n, Z.of_nat n + cf_max_kf c <= zlen (packets_of rs) ->
     exists k p, (n <= k)%nat /\ Z.of_nat k < Z.of_nat n + cf_max_kf c /\ nth_error (packets_of rs) k = Some p /\ p_type p = KEY).
Proof.
  intros scene c calls s rs Hc Hf H. destruct (history_of c scene calls Hc Hf s rs H) as (e & HI & Hp & _).
  assert (Hv := Inv_valid c scene _ s e HI). rewrite <- Hp. set (ps := accepted (cf_still c) calls) in *.
  set (pk := packets c (keyf scene ps) (zlen ps) (t35f ps) (opqf ps) e) in *.
  assert (K : forall n p, nth_error pk n = Some p -> gstart c (keyf scene ps) (Z.of_nat n) = Z.of_nat n -> p_type p = KEY).
  { intros n p Hn Hg. assert (Ht := packets_types c scene ps Hc Hf e Hv). fold pk in Ht.
    assert (E := f_equal (fun l => nth_error l n) Ht). cbn beta in E. rewrite !nth_error_map, Hn in E.
    rewrite nth_error_seq in E by (apply nth_error_Some; congruence). cbn [option_map] in E. injection E as E.
    change (0 + n)%nat with n in E. rewrite Hg, Z.eqb_refl in E. destruct (p_type p); [reflexivity|discriminate|discriminate]. }
  split; [|split].
  - intros p Hn. apply (K 0%nat p Hn). apply gstart_0.
  - intros n p q Hn Hq Hk. apply (K n p Hn). destruct n as [|n]; [apply gstart_0|]. apply gstart_key; [lia|].
    unfold keyf, forcedf, par. rewrite Nat2Z.id, Hq, Hk. reflexivity.
  - intros n Hn. assert (Hk1 := proj1 Hc). set (m := Z.of_nat n + cf_max_kf c - 1).
    assert (Hw := gstart_window c (keyf scene ps) Hk1 m ltac:(lia)). assert (Hle := gstart_le c (keyf scene ps) m ltac:(lia)).
    assert (Hid := gstart_idem c (keyf scene ps) m ltac:(lia)). set (g := gstart c (keyf scene ps) m) in *.
    assert (Hlt : (Z.to_nat g < length pk)%nat) by (unfold zlen in Hn; lia).
    destruct (nth_error pk (Z.to_nat g)) as [p|] eqn:Ep; [|apply nth_error_None in Ep; lia].
    exists (Z.to_nat g), p. split; [lia|]. split; [lia|]. split; [exact Ep|]. apply (K _ p Ep). rewrite Z2Nat.id by lia. exact Hid.
Qed.
Print Assumptions C12_first_forced_interval.
Example C12_ex : key_pattern 240 (wants_key (fun n => n =? 3) (accepted false ex_calls)) 0 240 7 = [true; false; false; true; false; true; false] /\
  key_pattern 3 (fun _ => false) 0 3 7 = [true; false; false; true; false; false; true].
Proof. vm_compute. auto. Qed.

(** ** C13 *)
(** Opaque data: the n-th packet carries exactly what the n-th frame brought. *)
Theorem C13_opaque : forall scene c calls s rs,
  legal c -> fits (accepted (cf_still c) calls) -> run scene c init calls = Some (s, rs) ->
  map p_opaque (packets_of rs) =
  firstn (length (packets_of rs)) (map (fun q => match q with Some q => pr_opaque q | None => None end) (accepted (cf_still c) calls)).
Proof.
  intros scene c calls s rs Hc Hf H. destruct (history_of c scene calls Hc Hf s rs H) as (e & HI & Hp & _).
  assert (Hv := Inv_valid c scene _ s e HI). destruct (C10_in_order scene c calls s rs Hc Hf H) as [_ Hle]. rewrite <- Hp in Hle |- *.
  set (ps := accepted (cf_still c) calls) in *. apply nth_error_ext'. intros n. rewrite nth_error_map.
  set (pk := packets c (keyf scene ps) (zlen ps) (t35f ps) (opqf ps) e) in *.
  destruct (nth_error pk n) as [p|] eqn:En.
  - assert (Hn : (n < length pk)%nat) by (apply nth_error_Some; congruence). rewrite nth_error_firstn' by exact Hn. rewrite nth_error_map.
    destruct (packets_in c scene ps Hf e Hv n p En) as (i & fi & _ & _ & _ & Hin & _ & _ & ->). cbn [option_map packet_of p_opaque].
    rewrite Hin. unfold opqf, par. rewrite Nat2Z.id. destruct (nth_error ps n) as [q|] eqn:Eq; [reflexivity|].
    apply nth_error_None in Eq. lia.
  - symmetry. apply nth_error_None. rewrite firstn_length, map_length. apply nth_error_None in En. lia.
Qed.
Print Assumptions C13_opaque.
Example C13_ex : map p_opaque ex_packets = map (fun n => Some (100 + n)) (zseq 0 7). Proof. vm_compute. reflexivity. Qed.

(** T.35 payloads: true in low-latency mode.  Missing from the full claim:
    reordering mode, where it is false (below). *)
Theorem C13_t35_partial : forall scene c calls s rs,
  legal c -> fits (accepted (cf_still c) calls) -> cf_low_latency c = true -> run scene c init calls = Some (s, rs) ->
  map (fun p => t35_of (p_data p)) (packets_of rs) =
  firstn (length (packets_of rs)) (map (fun q => match q with Some q => pr_t35 q | None => [] end) (accepted (cf_still c) calls)).
Proof.
  intros scene c calls s rs Hc Hf Hll H. destruct (history_of c scene calls Hc Hf s rs H) as (e & HI & Hp & _).
  assert (Hv := Inv_valid c scene _ s e HI). destruct (C10_in_order scene c calls s rs Hc Hf H) as [_ Hle]. rewrite <- Hp in Hle |- *.
  set (ps := accepted (cf_still c) calls) in *. apply nth_error_ext'. intros n. rewrite nth_error_map.
  set (pk := packets c (keyf scene ps) (zlen ps) (t35f ps) (opqf ps) e) in *.
  destruct (nth_error pk n) as [p|] eqn:En.
  - assert (Hn : (n < length pk)%nat) by (apply nth_error_Some; congruence). rewrite nth_error_firstn' by exact Hn. rewrite nth_error_map.
    cbn [option_map]. rewrite (ll_t35 c scene ps Hc (Hps ps Hf)) with (e := e) (n := n); [|unfold ic_reorder; rewrite Hll; reflexivity|exact Hv|exact En].
    unfold t35f, par. rewrite Nat2Z.id. destruct (nth_error ps n) as [q|] eqn:Eq; [reflexivity|]. apply nth_error_None in Eq. lia.
  - symmetry. apply nth_error_None. rewrite firstn_length, map_length. apply nth_error_None in En. lia.
Qed.
Print Assumptions C13_t35_partial.
Definition ex_ll : config := Config true true 0 false 240 3 true false.
Example C13_t35_ex : legal ex_ll /\
  option_map (fun r => map (fun p => t35_of (p_data p)) (packets_of (snd r))) (run (fun n => n =? 3) ex_ll init ex_all) = Some (map (fun n => [n]) (zseq 0 7)).
Proof. split; [unfold legal, ex_ll; cbn; lia|vm_compute; reflexivity]. Qed.

(** In reordering mode payloads get lost: after the stream is fully drained the
    payloads of frames 2 and 4 were in no packet at all. *)
Theorem C13_t35_refuted : exists scene c calls s rs,
  legal c /\ fits (accepted (cf_still c) calls) /\ run scene c init calls = Some (s, rs) /\ flushed calls = true /\
  length (packets_of rs) = length (accepted (cf_still c) calls) /\
  nth_error (accepted (cf_still c) calls) 4 = Some (Some (Params false None [4])) /\
  forall p, In p (packets_of rs) -> ~ In 4 (t35_of (p_data p)).
Proof.
  exists (fun _ => false), ex_c, ex_long. destruct (run (fun _ => false) ex_c init ex_long) as [[s rs]|] eqn:E; [|vm_compute in E; discriminate].
  exists s, rs. split; [exact ex_legal|]. split; [vm_compute; discriminate|]. split; [reflexivity|]. split; [reflexivity|].
  assert (Ep : packets_of rs = ex_long_packets) by (vm_compute in E; injection E as _ <-; reflexivity). rewrite Ep. clear E Ep.
  split; [vm_compute; reflexivity|]. split; [vm_compute; reflexivity|].
  assert (F : forallb (fun p => forallb (fun x => negb (x =? 4)) (t35_of (p_data p))) ex_long_packets = true) by (vm_compute; reflexivity).
  intros p Hp Hin. rewrite forallb_forall in F. specialize (F p Hp). rewrite forallb_forall in F. specialize (F 4 Hin). discriminate.
Qed.
Print Assumptions C13_t35_refuted.

(** ** The decoder's view: C14, C15, C16, C45, C46 *)
Lemma decoded : forall scene c calls s rs,
  legal c -> fits (accepted (cf_still c) calls) -> run scene c init calls = Some (s, rs) ->
  exists d evs, dec_packets (cf_still c) d_init (packets_of rs) = Some (d, evs) /\ Forall2 (packet_ok c) (packets_of rs) evs.
Proof.
  intros scene c calls s rs Hc Hf H. destruct (history_of c scene calls Hc Hf s rs H) as (e & HI & Hp & _).
  assert (Hv := Inv_valid c scene _ s e HI). rewrite <- Hp.
  destruct (dec_plan c scene _ Hc (Hps _ Hf) e Hv) as (d & evs & pev & E1 & _ & _ & _ & HF). eauto.
Qed.
Lemma in_evs c ps evs ev : Forall2 (packet_ok c) ps evs -> In ev evs -> Forall (ev_ok (cf_still c)) ev.
Proof.
  intros HF. induction HF as [|p e ps evs Hpe HF IH]; [contradiction|]. intros [<-|Hin]; [exact (proj1 Hpe)|exact (IH Hin)].
Qed.
Lemma in_ev c ps evs ev h p refs cvs : Forall2 (packet_ok c) ps evs -> In ev evs -> In (Decoded h p refs cvs) ev -> ev_ok (cf_still c) (Decoded h p refs cvs).
Proof. intros HF H1 H2. assert (X := in_evs c ps evs ev HF H1). rewrite Forall_forall in X. exact (X _ H2). Qed.

(** C14: the decoder accepts the stream, and every packet makes it output exactly
    one picture: the one coded from the input frame the packet is numbered with,
    which is also the reconstruction handed to the caller. *)
Theorem C14_shows : forall scene c calls s rs,
  legal c -> fits (accepted (cf_still c) calls) -> run scene c init calls = Some (s, rs) ->
  exists d evs, dec_packets (cf_still c) d_init (packets_of rs) = Some (d, evs) /\
    Forall2 (fun p ev => exists k, shown_of ev = [Recon (p_input p) k] /\ p_rec p = Some (Recon (p_input p) k)) (packets_of rs) evs.
Proof.
  intros scene c calls s rs Hc Hf H. destruct (decoded scene c calls s rs Hc Hf H) as (d & evs & E & HF). exists d, evs. split; [exact E|].
  clear E. induction HF as [|p e ps evs Hpe HF IH]; constructor; [|exact IH]. destruct Hpe as (_ & _ & k & H1 & H2). eauto.
Qed.
Print Assumptions C14_shows.
Example C14_ex : option_map (fun r => map shown_of (snd r)) (dec_packets false d_init ex_long_packets) =
  Some [[Recon 0 0]; [Recon 1 3]; [Recon 2 2]; [Recon 3 5]; [Recon 4 1]; [Recon 5 9]; [Recon 6 8]; [Recon 7 11]; [Recon 8 7]; [Recon 9 15]; [Recon 10 14]].
Proof. vm_compute. reflexivity. Qed.

(** C15: seven references, all decoded earlier in the same coded video sequence. *)
Theorem C15_closed : forall scene c calls s rs d evs ev h p refs cvs,
  legal c -> fits (accepted (cf_still c) calls) -> run scene c init calls = Some (s, rs) ->
  dec_packets (cf_still c) d_init (packets_of rs) = Some (d, evs) -> In ev evs -> In (Decoded h p refs cvs) ev -> h_type h <> KEY ->
  length refs = 7%nat /\ Forall (fun x => ds_cvs x = cvs /\ exists n k, ds_pic x = Recon n k /\ k < pl_out p /\ n <> pl_input p) refs.
Proof.
  intros scene c calls s rs d evs ev h p refs cvs Hc Hf H Hd H1 H2 Hk. destruct (decoded scene c calls s rs Hc Hf H) as (d' & evs' & E & HF).
  rewrite E in Hd. injection Hd as <- <-. assert (X := in_ev c _ _ _ _ _ _ _ HF H1 H2). unfold ev_ok in X.
  destruct (h_type h); [congruence|..]; destruct X as (X1 & _ & X2 & _); (split; [exact X1|]);
    (eapply Forall_impl; [|exact X2]); intros x (Y1 & n & k & Y2 & Y3 & Y4 & _); (split; [exact Y1|]); exists n, k; auto.
Qed.
Print Assumptions C15_closed.

(** C16: the six-bit hints give the exact display distance to every reference,
    and the direction the encoder assumed is the true one; the encoder's
    comparison on full hints is the decoder's on truncated ones. *)
Theorem C16_hints : forall scene c calls s rs d evs ev h p refs cvs,
  legal c -> fits (accepted (cf_still c) calls) -> run scene c init calls = Some (s, rs) ->
  dec_packets (cf_still c) d_init (packets_of rs) = Some (d, evs) -> In ev evs -> In (Decoded h p refs cvs) ev -> h_type h <> KEY ->
  Forall (fun x => exists n k, ds_pic x = Recon n k /\ dist6 (h_hint h) (ds_hint x) = pl_input p - n) refs /\
  (cf_still c = false -> pl_bias p = map (fun x => match ds_pic x with Recon n _ => pl_input p <? n | Source _ => false end) refs).
Proof.
  intros scene c calls s rs d evs ev h p refs cvs Hc Hf H Hd H1 H2 Hk. destruct (decoded scene c calls s rs Hc Hf H) as (d' & evs' & E & HF).
  rewrite E in Hd. injection Hd as <- <-. assert (X := in_ev c _ _ _ _ _ _ _ HF H1 H2). unfold ev_ok in X.
  destruct (h_type h); [congruence|..]; destruct X as (_ & _ & X2 & X3); (split; [|exact X3]);
    (eapply Forall_impl; [|exact X2]); intros x (_ & n & k & Y2 & _ & _ & Y5); exists n, k; auto.
Qed.
Print Assumptions C16_hints.
Theorem C16_compare : forall a b, relative_dist a b = dist6 (a mod 64) (b mod 64).
Proof. exact relative_dist_dist6. Qed.
Print Assumptions C16_compare.
Definition ex_inter : list event := Eval vm_compute in
  match dec_packets false d_init ex_long_packets with Some (_, evs) => filter (fun e => match e with Decoded h _ _ _ => negb (is_key (h_type h)) | _ => false end) (concat evs) | None => [] end.
Example C15_C16_ex : length ex_inter = 10%nat /\
  map (fun e => match e with Decoded h p refs _ => map (fun x => dist6 (h_hint h) (ds_hint x)) refs | _ => [] end) (firstn 3 ex_inter) =
  [[4; 4; 4; 4; 4; 4; 4]; [2; 2; 2; 2; 2; 2; -2]; [1; 1; 1; 1; 1; 1; -1]].
Proof. vm_compute. auto. Qed.

(** C45: the pictures the encoder predicts from are the ones in the decoder's
    buffers, for every coded frame. *)
Theorem C45_in_sync : forall scene c calls s rs,
  legal c -> fits (accepted (cf_still c) calls) -> run scene c init calls = Some (s, rs) ->
  exists d evs, dec_packets (cf_still c) d_init (packets_of rs) = Some (d, evs) /\
    forall ev h p refs cvs, In ev evs -> In (Decoded h p refs cvs) ev -> pl_refs p = map (fun x => Some (ds_pic x)) refs.
Proof.
  intros scene c calls s rs Hc Hf H. destruct (decoded scene c calls s rs Hc Hf H) as (d & evs & E & HF). exists d, evs. split; [exact E|].
  intros ev h p refs cvs H1 H2. assert (X := in_ev c _ _ _ _ _ _ _ HF H1 H2). unfold ev_ok in X.
  destruct (h_type h); [destruct X as (-> & ->); reflexivity|exact (proj1 (proj2 X))|exact (proj1 (proj2 X))].
Qed.
Print Assumptions C45_in_sync.

(** C46: the data of every packet is one temporal unit. *)
Theorem C46_units : forall scene c calls s rs,
  legal c -> fits (accepted (cf_still c) calls) -> run scene c init calls = Some (s, rs) ->
  Forall (fun p => temporal_unit (p_data p)) (packets_of rs).
Proof.
  intros scene c calls s rs Hc Hf H. destruct (decoded scene c calls s rs Hc Hf H) as (d & evs & _ & HF).
  induction HF as [|p e ps evs Hpe HF IH]; constructor; [exact (proj1 (proj2 Hpe))|exact IH].
Qed.
Print Assumptions C46_units.
Example C46_ex : map (fun p => length (p_data p)) ex_long_packets = [4; 5; 2; 3; 2; 5; 2; 3; 2; 4; 2]%nat. Proof. vm_compute. reflexivity. Qed.

(** ** C17 *)
(** A frame is accepted exactly when neither a flush nor (for a still picture) a
    frame came before; a refused one changes nothing. *)
Theorem C17_send : forall scene c calls p s rs,
  legal c -> fits (accepted (cf_still c) (calls ++ [Send p])) -> run scene c init calls = Some (s, rs) ->
  s_frame_count s = zlen (accepted (cf_still c) calls) /\
  exists s', send_frame scene c s p =
    Some (s', if flushed calls || (cf_still c && match accepted (cf_still c) calls with [] => false | _ => true end)
              then RStatus EnoughData else RSent) /\
    (flushed calls || (cf_still c && match accepted (cf_still c) calls with [] => false | _ => true end) = true -> s' = s).
Proof.
  intros scene c calls p s rs Hc Hf2 H.
  assert (Hpre : forall l, (length (sends l) <= length (sends (l ++ [Send p])))%nat).
  { clear. induction l as [|k l IH]; cbn; [lia|]. destruct k; cbn; lia. }
  assert (Hf : fits (accepted (cf_still c) calls)).
  { unfold fits, accepted, zlen in *. specialize (Hpre calls). destruct (cf_still c); [rewrite firstn_length in *; lia|lia]. }
  destruct (history_of c scene calls Hc Hf s rs H) as (e & HI & Hp & Hfl & Hfc). split; [exact Hfc|].
  assert (Eb : flushed calls || (cf_still c && match accepted (cf_still c) calls with [] => false | _ => true end) =
               s_flushing s || (cf_still c && (0 <? s_frame_count s))).
  { rewrite Hfl, Hfc. destruct (accepted (cf_still c) calls) as [|x l] eqn:Ea; [reflexivity|].
    destruct (Z.ltb_spec 0 (zlen (x :: l))) as [_|H0]; [reflexivity|]. unfold zlen in H0. cbn [length] in H0. lia. }
  rewrite Eb. destruct (C11_no_panic scene c (calls ++ [Send p]) Hc Hf2) as (s2 & rs2 & E2). rewrite run_app, H in E2. cbn [run do_call] in E2.
  unfold send_frame in *. destruct (s_flushing s || (cf_still c && (0 <? s_frame_count s))) eqn:Er.
  - exists s. auto.
  - destruct (inner_send _ _ _ _ _) as [s3|]; [|discriminate]. exists s3. split; [reflexivity|discriminate].
Qed.
Print Assumptions C17_send.
(** Flushing twice does nothing. *)
Theorem C17_flush : forall scene c calls s rs,
  legal c -> fits (accepted (cf_still c) calls) -> run scene c init calls = Some (s, rs) ->
  exists s', flush scene c s = Some (s', RSent) /\ (flushed calls = true -> s' = s) /\ flush scene c s' = Some (s', RSent) /\
    forall p, send_frame scene c s' p = Some (s', RStatus EnoughData).
Proof.
  intros scene c calls s rs Hc Hf H. destruct (history_of c scene calls Hc Hf s rs H) as (e & HI & Hp & Hfl & Hfc).
  assert (F : forall s', s_flushing s' = true -> flush scene c s' = Some (s', RSent) /\ forall p, send_frame scene c s' p = Some (s', RStatus EnoughData)).
  { intros s' Hs'. unfold flush, send_frame. rewrite Hs'. auto. }
  destruct (s_flushing s) eqn:Hs.
  - destruct (F s Hs) as [F1 F2]. exists s. auto.
  - destruct (flush_ok c scene _ Hc (Hps _ Hf) s e HI Hs Hfc) as (s' & E & _ & Hs' & _). unfold flush. rewrite Hs, E. exists s'.
    destruct (F s' Hs') as [F1 F2]. unfold flush in F1. split; [reflexivity|]. split; [congruence|]. auto.
Qed.
Print Assumptions C17_flush.
Example C17_ex : accepted true [Receive true; Send None; Send None; Flush; Send None] = [None] /\
  accepted false [Receive true; Send None; Send None; Flush; Send None] = [None; None] /\
  option_map snd (run (fun _ => false) (Config true true 0 false 240 3 true true) init [Receive true; Send None; Send None; Flush; Send None; Flush]) =
  Some [RStatus NeedMoreData; RSent; RStatus EnoughData; RSent; RStatus EnoughData; RSent].
Proof. vm_compute. auto. Qed.

(** ** C47 *)
(** What comes out depends only on the frames accepted, not on when packets are
    fetched or the flush happens: of two histories with the same accepted
    frames, one packet list is a prefix of the other. *)
Theorem C47_deterministic : forall scene c calls1 calls2 s1 rs1 s2 rs2,
  legal c -> fits (accepted (cf_still c) calls1) -> accepted (cf_still c) calls1 = accepted (cf_still c) calls2 ->
  run scene c init calls1 = Some (s1, rs1) -> run scene c init calls2 = Some (s2, rs2) ->
  (length (packets_of rs1) <= length (packets_of rs2))%nat ->
  exists rest, packets_of rs2 = packets_of rs1 ++ rest.
Proof.
  intros scene c l1 l2 s1 rs1 s2 rs2 Hc Hf Ea H1 H2 Hlen.
  destruct (history_of c scene l1 Hc Hf s1 rs1 H1) as (e1 & _ & Hp1 & _).
  destruct (history_of c scene l2 Hc) with (s := s2) (rs := rs2) as (e2 & _ & Hp2 & _); [rewrite <- Ea; exact Hf|exact H2|].
  rewrite <- Ea in Hp2. rewrite <- Hp1, <- Hp2 in *. destruct (Nat.le_ge_cases e1 e2) as [H|H].
  - apply packets_prefix. exact H.
  - destruct (packets_prefix c scene (accepted (cf_still c) l1) e2 e1 H) as [t Et]. rewrite Et, app_length in Hlen.
    destruct t; [|cbn in Hlen; lia]. rewrite app_nil_r in Et. exists []. rewrite app_nil_r, Et. reflexivity.
Qed.
Print Assumptions C47_deterministic.
Example C47_ex : accepted false ex_all = accepted false (ex_calls ++ [Receive false; Receive true]) /\
  option_map (fun r => length (packets_of (snd r))) (run (fun n => n =? 3) ex_c init (ex_calls ++ [Receive false; Receive true])) = Some 1%nat.
Proof. vm_compute. auto. Qed.

(** ** C48 *)
(** Bounded delay: when the encoder asks for more data, all but a fixed number of
    the frames sent so far have come out: the RDO lookahead plus 3 (low latency)
    or 14 (reordering). *)
Theorem C48_latency : forall scene c calls s rs ready s',
  legal c -> fits (accepted (cf_still c) calls) -> run scene c init calls = Some (s, rs) ->
  receive_packet c s ready = Some (s', RStatus NeedMoreData) ->
  zlen (accepted (cf_still c) calls) - zlen (packets_of rs) <= cf_rdo_la c + (if cf_low_latency c then 3 else 14).
Proof.
  intros scene c calls s rs ready s' Hc Hf H Hr. destruct (history_of c scene calls Hc Hf s rs H) as (e & HI & Hp & Hfl & Hfc).
  destruct (receive_ok c scene _ Hc (Hps _ Hf) s e ready HI) as (s1 & r1 & e1 & E & _ & _ & _ & _ & _ & Hcase). rewrite E in Hr. injection Hr as <- ->.
  cbn in Hcase. destruct Hcase as (Hf1 & _ & Hn). assert (Hlat := latency c scene _ Hc (Hps _ Hf) s e HI Hf1 Hn).
  assert (Hl := packets_len c scene _ e (Inv_valid c scene _ s e HI)). rewrite Hp in Hl. rewrite Hl. rewrite Hfc in Hlat. unfold ic_reorder in Hlat. destruct (cf_low_latency c); exact Hlat.
Qed.
Print Assumptions C48_latency.
Example C48_ex : exists s rs, run (fun _ => false) ex_c init (repeat (Send None) 12 ++ repeat (Receive true) 20) = Some (s, rs) /\
  receive_packet ex_c s true = Some (s, RStatus NeedMoreData) /\ length (packets_of rs) = 1%nat.
Proof.
  destruct (C11_no_panic (fun _ => false) ex_c (repeat (Send None) 12 ++ repeat (Receive true) 20) ex_legal) as (s & rs & H); [vm_compute; discriminate|].
  exists s, rs. split; [exact H|]. vm_compute in H. injection H as <- <-. vm_compute. auto.
Qed.
