(** Properties C01-C08, C43, C44: the range coder and its writers. *)
From Verif Require Import Base EC_model EC_spec EC_proof EC_dec EC_writers Codes_model Codes_proof.

(** ** C01.  Write any symbols with any valid tables, finish with done():
    the AV1 symbol decoder, given the same tables, reads the same symbols. *)
Theorem C01_range_coder_roundtrip :
  forall syms : list (list Z * nat),
  Forall (fun cs => valid_icdf (fst cs) /\ (snd cs < length (fst cs))%nat) syms ->
  exists data st,
    enc_done (fold_left (fun w cs => enc_store w (symbol_token (snd cs) (fst cs))) syms enc_new) = Some data /\
    bytes data /\
    decode_static (map (fun cs => spec_cdf (fst cs)) syms) (init_symbol data)
    = Some (map (fun cs => Z.of_nat (snd cs)) syms, st) /\
    trailing_ok data st.
Proof. exact static_roundtrip. Qed.
Print Assumptions C01_range_coder_roundtrip.

(** A concrete case: four different tables, seven symbols. *)
Definition ex_syms : list (list Z * nat) :=
  [([16384; 0], 1%nat); ([30000; 20000; 10000; 3], 0%nat); ([100; 50; 0], 2%nat); ([100; 50; 0], 0%nat);
   ([32767; 32766; 5; 4; 3; 2; 1; 0; 0; 0; 0; 0; 0; 0; 0; 32], 15%nat);
   ([30000; 20000; 10000; 3], 3%nat); ([16384; 0], 0%nat)].
Example C01_example :
  Forall (fun cs => valid_icdf (fst cs) /\ (snd cs < length (fst cs))%nat) ex_syms /\
  enc_done (fold_left (fun w cs => enc_store w (symbol_token (snd cs) (fst cs))) ex_syms enc_new)
  = Some [138; 243; 255; 219; 208] /\
  option_map fst (decode_static (map (fun cs => spec_cdf (fst cs)) ex_syms) (init_symbol [138; 243; 255; 219; 208]))
  = Some [1; 0; 2; 0; 15; 3; 0].
Proof.
  split; [|split; vm_compute; reflexivity].
  unfold ex_syms; repeat (apply Forall_cons; [split; [apply valid_icdfb_ok; reflexivity|cbn; lia]|]); constructor.
Qed.

(** ** C02.  Adaptive coding with any context selection stays in sync: the
    decoder, adapting its own tables by the AV1 rule, reads the same symbols,
    ends with the same tables, and all tables stay valid. *)
Theorem C02_adaptive_sync :
  forall (ctx : list Z -> source) (tables : list (list Z)) (syms : list nat),
  Forall valid_icdf tables -> session_ok ctx [] tables syms ->
  exists data st,
    enc_done (fst (encode_session ctx [] tables enc_new syms)) = Some data /\ bytes data /\
    decode_session (length syms) (spec_ctx ctx) [] (map spec_cdf tables) (init_symbol data)
    = Some (map Z.of_nat syms,
            map spec_cdf (snd (encode_session ctx [] tables enc_new syms)), st) /\
    Forall valid_icdf (snd (encode_session ctx [] tables enc_new syms)) /\
    trailing_ok data st.
Proof. exact session_roundtrip. Qed.
Print Assumptions C02_adaptive_sync.

(** A case where the table used depends on the symbol just coded. *)
Definition ex_ctx (h : list Z) : source :=
  match h with [] => Fixed [16384; 0] | _ => Adaptive (Z.to_nat (last h 0)) end.
Definition ex_tables : list (list Z) := [[16384; 0]; [30000; 20000; 10000; 31]].
Example C02_example :
  Forall valid_icdf ex_tables /\ session_ok ex_ctx [] ex_tables [1; 0; 1; 1; 0; 0]%nat /\
  snd (encode_session ex_ctx [] ex_tables enc_new [1; 0; 1; 1; 0; 0]%nat)
  = [[16320; 2]; [29327; 19383; 9692; 32]].
Proof.
  split; [|split].
  - apply Forall_cons; [apply valid_icdfb_ok; reflexivity|].
    apply Forall_cons; [apply valid_icdfb_ok; reflexivity|]. apply Forall_nil.
  - split; [split; [apply valid_icdfb_ok; reflexivity|apply Nat.ltb_lt; reflexivity]|].
    repeat (split; [split; apply Nat.ltb_lt; vm_compute; reflexivity|]). exact I.
  - vm_compute. reflexivity.
Qed.

(** Adaptation keeps a table valid, and is the AV1 rule. *)
Theorem C02_update_is_av1_adaptation :
  forall icdf s, valid_icdf icdf ->
  valid_icdf (update_cdf icdf s) /\ adapt (spec_cdf icdf) (Z.of_nat s) = spec_cdf (update_cdf icdf s).
Proof. intros icdf s H. exact (conj (update_cdf_valid icdf s H) (adapt_ok icdf s H)). Qed.
Print Assumptions C02_update_is_av1_adaptation.
Example C02_update_example :
  valid_icdf [30000; 20000; 10000; 31] /\ update_cdf [30000; 20000; 10000; 31] 1 = [30043; 19688; 9844; 32].
Proof. split; [apply valid_icdfb_ok; reflexivity|vm_compute; reflexivity]. Qed.

(** ** C03.  Recording calls (with any rolled-back trials in between) and
    replaying them into an encoder equals issuing them on that encoder; the
    recorder is as new afterwards. *)
Theorem C03_replay_equals_direct :
  forall (before calls : list item),
  Forall tok_ok before -> Forall no_fake before -> Forall no_fake calls ->
  let w := run enc_ops before enc_new in
  rec_replay enc_store (run rec_ops calls rec_new) w = (run enc_ops calls w, rec_new).
Proof.
  intros before calls Hok Hb Hc w. apply replay_enc; [exact Hc|].
  destruct (agree_run before Hok _ _ _ _ agree_new) as (x & Hx & He & _).
  exact (enc_rel_low _ x Hx He).
Qed.
Print Assumptions C03_replay_equals_direct.
Example C03_example :
  let calls := [Put (symbol_token 1 [16384; 0]);
                Trials [[Put (symbol_token 0 [100; 50; 0])]; [Put (symbol_token 2 [100; 50; 0])]];
                Put (symbol_token 3 [30000; 20000; 10000; 3])] in
  Forall no_fake calls /\
  enc_done (fst (rec_replay enc_store (run rec_ops calls rec_new) enc_new)) = Some [240] /\
  enc_done (run enc_ops calls enc_new) = Some [240].
Proof. split; [repeat constructor|vm_compute; split; reflexivity]. Qed.

(** ** C04.  Trials leave no trace.  Running any program of calls and
    (nested, repeated) checkpoint-trial-rollback rounds gives exactly the
    state of the program with every trial deleted, for all three writers. *)
Theorem C04_trials_leave_no_trace :
  forall calls, Forall no_fake calls ->
  (forall w, run cnt_ops calls w = fold_left cnt_store (tokens_of calls) w) /\
  (forall w, run rec_ops calls w = fold_left rec_store (tokens_of calls) w) /\
  (forall w, 0 <= e_low w < 2 ^ 32 -> run enc_ops calls w = fold_left enc_store (tokens_of calls) w).
Proof.
  intros calls H.
  exact (conj (fun w => cnt_run_kept calls w H)
        (conj (fun w => rec_run_kept calls w H)
              (fun w L => enc_run_kept calls w (u32_id _ L) H))).
Qed.
Print Assumptions C04_trials_leave_no_trace.
Example C04_example :
  let t := Put (symbol_token 3 [30000; 20000; 10000; 3]) in
  let calls := [t; Trials [[t; t; Trials [[t]; [t; t]]; t]; [t]]; t] in
  Forall no_fake calls /\ length (tokens_of calls) = 2%nat /\
  e_precarry (run enc_ops [t; t; t; t; t; t; t; t] enc_new) <> [].
Proof. cbn zeta. split; [repeat constructor|]. split; [reflexivity|vm_compute; intros H; discriminate H]. Qed.

(** The one thing a rollback does not restore is the fractional bits credited
    with add_bits_frac: the full statement, over all Writer calls, is false. *)
Theorem C04_fake_bits_refuted :
  exists calls trial : list item,
    run cnt_ops (calls ++ [Trials [trial]]) cnt_new <> run cnt_ops calls cnt_new /\
    cnt_tell_frac (run cnt_ops (calls ++ [Trials [trial]]) cnt_new)
    <> cnt_tell_frac (run cnt_ops calls cnt_new).
Proof. exists [], [Fake 20]. split; vm_compute; discriminate. Qed.
Print Assumptions C04_fake_bits_refuted.

(** ** C05.  All three writers report the same tell and tell_frac after the
    same calls, trials and fractional credits included. *)
Theorem C05_writers_agree :
  forall calls, Forall tok_ok calls ->
  let e := run enc_ops calls enc_new in
  let c := run cnt_ops calls cnt_new in
  let r := run rec_ops calls rec_new in
  enc_tell e = cnt_tell c /\ enc_tell e = rec_tell r /\
  enc_tell_frac e = cnt_tell_frac c /\ enc_tell_frac e = rec_tell_frac r.
Proof.
  intros calls H e c r. destruct (agree_run calls H _ _ _ _ agree_new) as (x & A).
  exact (agree_tell _ _ _ _ A).
Qed.
Print Assumptions C05_writers_agree.
Example C05_example :
  let t := Put (symbol_token 3 [30000; 20000; 10000; 3]) in
  let calls := [t; Trials [[t; Fake 7; t]]; Fake 300; t; t; t; t; t; t] in
  Forall tok_ok calls /\
  enc_tell (run enc_ops calls enc_new) = 15 /\ enc_tell_frac (run enc_ops calls enc_new) = 420 /\
  zlen (e_precarry (run enc_ops calls enc_new)) = 1.
Proof.
  split; [|vm_compute; repeat split; reflexivity].
  assert (H : valid_token (symbol_token 3 [30000; 20000; 10000; 3]))
    by (apply symbol_token_valid; [apply valid_icdfb_ok; reflexivity|cbn; lia]).
  revert H. generalize (symbol_token 3 [30000; 20000; 10000; 3]). intros t H.
  repeat (apply Forall_cons; [cbn; auto|]). apply Forall_nil.
Qed.

(** ** C06.  done() returns exactly tell() bits rounded up to bytes, and
    neither tell nor tell_frac ever decreases.  (The u32 arithmetic of tell
    wraps beyond 2^28 buffered words, hence the size hypothesis.) *)
Theorem C06_tell_predicts_length :
  forall tokens, Forall valid_token tokens ->
  let w := enc_all enc_new tokens in
  zlen (e_precarry w) < 2 ^ 28 - 2 ->
  (exists data, enc_done w = Some data /\ zlen data = (enc_tell w + 7) / 8) /\
  (forall t, valid_token t ->
     enc_tell w <= enc_tell (enc_store w t) /\ enc_tell_frac w <= enc_tell_frac (enc_store w t)).
Proof.
  intros tokens H w Hlim. pose proof (enc_inv_all tokens enc_new enc_inv_new H) as Hi. split.
  - destruct (enc_done w) as [data|] eqn:E.
    + exists data. split; [reflexivity|]. exact (tell_length w data Hi (enc_all_fake tokens enc_new) Hlim E).
    + destruct Hi as (x & Hx & He & _). destruct (enc_done_some _ _ Hx He E).
  - intros t Ht. exact (tell_mono w t Hi Ht Hlim).
Qed.
Print Assumptions C06_tell_predicts_length.
Example C06_example :
  let t := symbol_token 3 [30000; 20000; 10000; 3] in
  let w := enc_all enc_new [t; t; t; t; t; t; t; t; t; t; t; t; t; t; t; t] in
  zlen (e_precarry w) < 2 ^ 28 - 2 /\ enc_tell w = 29 /\ option_map zlen (enc_done w) = Some 4.
Proof. vm_compute. repeat split; reflexivity. Qed.

(** ** C07.  Any sequence of literals and universal codes is read back
    unchanged, through the range coder, by the AV1 parsing procedures. *)
Theorem C07_codes_roundtrip :
  forall l : list (code_kind * Z), Forall (fun cv => code_ok (fst cv) (snd cv)) l ->
  exists evs data st,
    write_codes l = Some evs /\
    enc_done (fst (enc_events evs (enc_new, []))) = Some data /\ bytes data /\
    decode_prog (parse_codes (map fst l)) [] (init_symbol data) = Some (map snd l, [], st) /\
    trailing_ok data st.
Proof. exact codes_roundtrip. Qed.
Print Assumptions C07_codes_roundtrip.
Definition ex_codes : list (code_kind * Z) :=
  [(KLiteral 5, 19); (KGolomb, 77); (KQuniform 11, 9); (KSubexp 128 3, 100); (KUnsignedRef 64 4 60, 5);
   (KSignedRef (-96) 32 4 (-31), 20)].
Example C07_example :
  Forall (fun cv => code_ok (fst cv) (snd cv)) ex_codes /\
  option_map (fun evs => enc_done (fst (enc_events evs (enc_new, [])))) (write_codes ex_codes)
  = Some (Some [152; 13; 61; 32; 180; 52; 128]).
Proof.
  split; [|vm_compute; reflexivity].
  repeat (apply Forall_cons; [cbn [code_ok fst snd]; repeat split; vm_compute; (reflexivity || discriminate)|]).
  constructor.
Qed.

(** ** C08.  The predicted cost is eight times the number of bits written. *)
Theorem C08_predicted_cost_exact :
  forall c v, has_prediction c = true -> code_ok c v ->
  exists evs, write_code c v = Some evs /\ Forall is_bit_event evs /\ predicted c v = Some (8 * zlen evs).
Proof. exact predicted_ok. Qed.
Print Assumptions C08_predicted_cost_exact.
Example C08_example :
  code_ok (KSignedRef (-96) 32 4 (-31)) 20 /\ predicted (KSignedRef (-96) 32 4 (-31)) 20 = Some 72.
Proof. split; [cbn [code_ok]; lia|vm_compute; reflexivity]. Qed.

(** ** C43.  The cost estimate for a symbol is exactly the growth of tell_frac
    caused by coding it on the encoder. *)
Theorem C43_symbol_bits_exact :
  forall tokens icdf s, Forall valid_token tokens -> valid_icdf icdf -> (s < length icdf)%nat ->
  let w := enc_all enc_new tokens in
  zlen (e_precarry w) < 2 ^ 28 - 2 ->
  symbol_bits (e_rng w) (e_cnt w) s icdf
  = Some (enc_tell_frac (enc_store w (symbol_token s icdf)) - enc_tell_frac w).
Proof.
  intros tokens icdf s H Hv Hs w Hlim.
  exact (symbol_bits_ok w icdf s (enc_inv_all tokens enc_new enc_inv_new H) Hv Hs Hlim).
Qed.
Print Assumptions C43_symbol_bits_exact.
Example C43_example :
  let w := enc_all enc_new [symbol_token 3 [30000; 20000; 10000; 3]] in
  symbol_bits (e_rng w) (e_cnt w) 0 [30000; 20000; 10000; 3] = Some 29.
Proof. vm_compute. reflexivity. Qed.

(** On a recording writer the same call underflows an unsigned subtraction. *)
Theorem C43_symbol_bits_recorder_refuted :
  exists t icdf s, valid_token t /\ valid_icdf icdf /\ (s < length icdf)%nat /\
  let w := rec_store rec_new t in symbol_bits (r_rng w) (r_cnt w) s icdf = None.
Proof.
  exists (symbol_token 3 [30000; 20000; 10000; 3]), [16384; 0], 0%nat.
  split; [apply symbol_token_valid; [apply valid_icdfb_ok; reflexivity|cbn; lia]|].
  split; [apply valid_icdfb_ok; reflexivity|]. split; [cbn; lia|vm_compute; reflexivity].
Qed.
Print Assumptions C43_symbol_bits_recorder_refuted.

(** ** C44.  The end of the stream: the decoder, having read all symbols,
    finds a one bit at its trailing position and zeros up to the end of the
    last byte (AV1 exit process); no byte is missing and none is left over. *)
Theorem C44_exit_process :
  forall (tables : list (list Z)) (ctx : list Z -> source) (syms : list nat),
  Forall valid_icdf tables -> session_ok ctx [] tables syms ->
  exists data st,
    enc_done (fst (encode_session ctx [] tables enc_new syms)) = Some data /\
    option_map snd (decode_session (length syms) (spec_ctx ctx) [] (map spec_cdf tables) (init_symbol data))
    = Some st /\ trailing_ok data st.
Proof.
  intros tables ctx syms H1 H2. destruct (session_roundtrip ctx tables syms H1 H2) as (data & st & E & _ & D & _ & T).
  exists data, st. rewrite D. exact (conj E (conj eq_refl T)).
Qed.
Print Assumptions C44_exit_process.
Example C44_example :
  let d := [134; 8] in
  enc_done (fst (encode_session ex_ctx [] ex_tables enc_new [1; 0; 1; 1; 0; 0]%nat)) = Some d /\
  option_map snd (decode_session 6 (spec_ctx ex_ctx) [] (map spec_cdf ex_tables) (init_symbol d)) <> None.
Proof. split; [vm_compute; reflexivity|vm_compute; discriminate]. Qed.
