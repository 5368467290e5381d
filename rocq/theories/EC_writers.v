(** The three writers driven by the same calls: recording and replay,
    checkpoints, bit counts. *)
From Verif Require Import Base EC_model EC_spec EC_proof EC_dec.

Ltac dlr := match goal with |- context [lr_compute ?a ?b] => destruct (lr_compute a b) as [?l ?r] end.

(** ** Programs over a writer.

    [Put t]: any call that stores a token (symbol, bool, bit, literal, ...).
    [Fake b]: add_bits_frac.
    [Trials ls]: take a checkpoint, then for every trial in [ls] run it and
    roll back to that checkpoint (the RDO pattern). *)
Inductive item := Put (t : token) | Fake (b : Z) | Trials (ls : list (list item)).

(** A writer: its calls, as functions on its state. *)
Record writer_ops (W : Type) := WriterOps {
  wo_store : W -> token -> W;
  wo_fake : W -> Z -> W;
  wo_ck : W -> checkpoint;
  wo_rb : W -> checkpoint -> W }.
Arguments wo_store {W}. Arguments wo_fake {W}. Arguments wo_ck {W}. Arguments wo_rb {W}.

Fixpoint run_item {W} (o : writer_ops W) (i : item) (w : W) : W :=
  match i with
  | Put t => wo_store o w t
  | Fake b => wo_fake o w b
  | Trials ls =>
      let k := wo_ck o w in
      fold_left (fun w l => wo_rb o (fold_left (fun w i => run_item o i w) l w) k) ls w
  end.
Definition run {W} (o : writer_ops W) (l : list item) (w : W) : W :=
  fold_left (fun w i => run_item o i w) l w.

Definition enc_ops := WriterOps encoder enc_store enc_add_bits_frac enc_checkpoint enc_rollback.
Definition cnt_ops := WriterOps counter cnt_store cnt_add_bits_frac cnt_checkpoint cnt_rollback.
Definition rec_ops := WriterOps recorder rec_store rec_add_bits_frac rec_checkpoint rec_rollback.

(** The calls that are kept (everything outside trials). *)
Definition kept (l : list item) : list item :=
  filter (fun i => match i with Trials _ => false | _ => true end) l.
Definition tokens_of (l : list item) : list token :=
  flat_map (fun i => match i with Put t => [t] | _ => [] end) l.

Definition all {A} (P : A -> Prop) : list A -> Prop :=
  fix go l := match l with [] => True | x :: r => P x /\ go r end.
Lemma all_Forall {A} (P : A -> Prop) l : all P l <-> Forall P l.
Proof.
  induction l as [|x l IH]; cbn; [split; constructor|]. split.
  - intros [H1 H2]. constructor; [exact H1|]. apply IH, H2.
  - intros H. inversion H; subst. split; [assumption|]. apply IH. assumption.
Qed.
Lemma all_all_Forall {A} (P : A -> Prop) ls : all (all P) ls <-> Forall (Forall P) ls.
Proof.
  rewrite all_Forall. split; apply Forall_impl; intros l; apply all_Forall.
Qed.

(** No fake bits anywhere, including inside trials. *)
Fixpoint no_fake (i : item) : Prop :=
  match i with
  | Put _ => True
  | Fake _ => False
  | Trials ls => all (all no_fake) ls
  end.
(** All tokens valid, including inside trials. *)
Fixpoint tok_ok (i : item) : Prop :=
  match i with
  | Put t => valid_token t
  | Fake _ => True
  | Trials ls => all (all tok_ok) ls
  end.

(** Induction on items with the nested lists. *)
Section item_ind.
  Variable P : item -> Prop.
  Hypothesis HPut : forall t, P (Put t).
  Hypothesis HFake : forall b, P (Fake b).
  Hypothesis HTrials : forall ls, Forall (Forall P) ls -> P (Trials ls).
  Fixpoint item_ind2 (i : item) : P i :=
    match i with
    | Put t => HPut t
    | Fake b => HFake b
    | Trials ls =>
        HTrials ls
          ((fix go (ls : list (list item)) : Forall (Forall P) ls :=
              match ls with
              | [] => Forall_nil _
              | l :: r =>
                  Forall_cons _
                    ((fix go' (l : list item) : Forall P l :=
                        match l with
                        | [] => Forall_nil _
                        | i :: r => Forall_cons _ (item_ind2 i) (go' r)
                        end) l) (go r)
              end) ls)
    end.
End item_ind.

(** ** Rolling back *)

(** [later w w']: [w'] was reached from [w] by calls; what rollback relies on. *)
Section rollback.
  Context {W : Type} (o : writer_ops W) (later : W -> W -> Prop).
  Hypothesis later_refl : forall w, later w w.
  Hypothesis later_trans : forall a b c, later a b -> later b c -> later a c.
  Hypothesis later_store : forall w t, later w (wo_store o w t).
  Hypothesis later_rb : forall w w', later w w' -> wo_rb o w' (wo_ck o w) = w.

  Lemma run_item_later i : no_fake i -> forall w,
    later w (run_item o i w) /\ match i with Trials _ => run_item o i w = w | _ => True end.
  Proof.
    induction i as [t|b|ls IH] using item_ind2; intros Hn w; cbn [run_item].
    - split; [apply later_store|exact I].
    - destruct Hn.
    - cbn [no_fake] in Hn; apply all_all_Forall in Hn.
      assert (E : fold_left (fun w0 l => wo_rb o (fold_left (fun w i => run_item o i w) l w0) (wo_ck o w)) ls w = w).
      { induction IH as [|l ls Hl Hls IHls]; [reflexivity|].
        inversion Hn as [|? ? Hnl Hnls]; subst. cbn [fold_left].
        assert (L : later w (fold_left (fun w i => run_item o i w) l w)).
        { clear - Hl Hnl later_refl later_trans.
          assert (G : forall w0, later w0 (fold_left (fun w i => run_item o i w) l w0)).
          { induction Hl as [|i l Hi Hl IH]; intros w0; [apply later_refl|].
            inversion Hnl; subst. cbn [fold_left]. eapply later_trans; [apply Hi; assumption|].
            apply IH; assumption. }
          apply G. }
        rewrite (later_rb _ _ L). apply IHls. assumption. }
      rewrite E. split; [apply later_refl|reflexivity].
  Qed.

  Lemma run_kept l w : Forall no_fake l ->
    run o l w = fold_left (wo_store o) (tokens_of l) w.
  Proof.
    unfold run. revert w; induction l as [|i l IH]; intros w H; [reflexivity|].
    inversion H; subst. cbn [fold_left tokens_of flat_map]. destruct i as [t|b|ls].
    - cbn [run_item app]. apply IH; assumption.
    - destruct H2.
    - destruct (run_item_later (Trials ls) H2 w) as [_ E]. rewrite E.
      cbn [app]. apply IH; assumption.
  Qed.
End rollback.

(** Counter *)
Definition cnt_later (w w' : counter) : Prop := c_cnt w' = c_cnt w /\ c_fake w' = c_fake w.
Lemma cnt_run_kept l w : Forall no_fake l -> run cnt_ops l w = fold_left cnt_store (tokens_of l) w.
Proof.
  apply (run_kept cnt_ops cnt_later).
  - split; reflexivity.
  - intros a b c [H1 H2] [H3 H4]. split; congruence.
  - intros w0 t. cbn [wo_store cnt_ops]. unfold cnt_store. dlr. split; reflexivity.
  - intros [r c f b] [r' c' f' b'] [H1 H2]; cbn in *. subst. reflexivity.
Qed.

(** Recorder *)
Definition rec_later (w w' : recorder) : Prop :=
  r_fake w' = r_fake w /\ exists more, r_storage w' = r_storage w ++ more.
Lemma firstn_zlen_app {A} (l m : list A) : firstn (Z.to_nat (zlen l)) (l ++ m) = l.
Proof.
  unfold zlen. rewrite Nat2Z.id, firstn_app, Nat.sub_diag, firstn_all. cbn. apply app_nil_r.
Qed.
Lemma rec_run_kept l w : Forall no_fake l -> run rec_ops l w = fold_left rec_store (tokens_of l) w.
Proof.
  apply (run_kept rec_ops rec_later).
  - intros w0; split; [reflexivity|]. exists []. now rewrite app_nil_r.
  - intros a b c [H1 [m1 E1]] [H2 [m2 E2]]. split; [congruence|].
    exists (m1 ++ m2). rewrite E2, E1. now rewrite app_assoc.
  - intros w0 t. cbn [wo_store rec_ops]. unfold rec_store. dlr. split; [reflexivity|].
    exists [t]. reflexivity.
  - intros [r c f b st] [r' c' f' b' st'] [H1 [m E]]; cbn in *. subst.
    unfold rec_rollback, rec_checkpoint; cbn. rewrite firstn_zlen_app. reflexivity.
Qed.

(** Encoder: [low] is a u32, so storing it in the usize [backend_var] and
    casting back is the identity. *)
Definition enc_later (w w' : encoder) : Prop :=
  e_fake w' = e_fake w /\ (u32 (e_low w) = e_low w -> u32 (e_low w') = e_low w') /\
  exists more, e_precarry w' = e_precarry w ++ more.
Lemma u32_u32 x : u32 (u32 x) = u32 x.
Proof. unfold u32. apply Z.mod_mod. lia. Qed.
Lemma enc_store_later w t : enc_later w (enc_store w t).
Proof.
  unfold enc_store. dlr.
  destruct (0 <=? _); [destruct (8 <=? _)|]; (split; [reflexivity|]; split; [intros _; apply u32_u32|]); cbn.
  - eexists. rewrite <- app_assoc. reflexivity.
  - eexists. reflexivity.
  - exists []. now rewrite app_nil_r.
Qed.

(** The encoder's rollback needs [low] to be a u32, which holds in every state
    reached from [new]; the generic argument is run on such states. *)
Lemma enc_item_later i : no_fake i -> forall w, u32 (e_low w) = e_low w ->
  enc_later w (run_item enc_ops i w) /\ match i with Trials _ => run_item enc_ops i w = w | _ => True end.
Proof.
  induction i as [t|b|ls IH] using item_ind2; intros Hn w Hw; cbn [run_item].
  - split; [apply enc_store_later|exact I].
  - destruct Hn.
  - cbn [no_fake] in Hn; apply all_all_Forall in Hn.
    assert (Refl : forall w, enc_later w w).
    { intros w0; split; [reflexivity|]; split; [auto|]. exists []. now rewrite app_nil_r. }
    assert (E : fold_left (fun w0 l => enc_rollback (fold_left (fun w i => run_item enc_ops i w) l w0) (enc_checkpoint w)) ls w = w).
    { induction IH as [|l ls Hl Hls IHls]; [reflexivity|].
      inversion Hn as [|? ? Hnl Hnls]; subst. cbn [fold_left].
      assert (L : enc_later w (fold_left (fun w i => run_item enc_ops i w) l w)).
      { clear - Hl Hnl Hw Refl.
        assert (G : forall w0, u32 (e_low w0) = e_low w0 -> enc_later w0 (fold_left (fun w i => run_item enc_ops i w) l w0)).
        { induction Hl as [|i l Hi Hl IH]; intros w0 H0; [apply Refl|].
          inversion Hnl as [|? ? Hi1 Hi2]; subst. cbn [fold_left]. destruct (Hi Hi1 w0 H0) as [(A1 & A2 & m1 & A3) _].
          destruct (IH Hi2 (run_item enc_ops i w0) (A2 H0)) as (B1 & B2 & m2 & B3).
          split; [congruence|]. split; [auto|]. exists (m1 ++ m2). rewrite B3, A3. now rewrite app_assoc. }
        apply G; assumption. }
      destruct L as (L1 & L2 & m & L3).
      set (w' := fold_left (fun w i => run_item enc_ops i w) l w) in *.
      assert (R : enc_rollback w' (enc_checkpoint w) = w).
      { unfold enc_rollback, enc_checkpoint; cbn. rewrite L3, firstn_zlen_app, L1, Hw. destruct w; reflexivity. }
      rewrite R. apply IHls. assumption. }
    cbn [wo_rb wo_ck enc_ops]. rewrite E. split; [apply Refl|reflexivity].
Qed.

Lemma enc_run_kept l w : u32 (e_low w) = e_low w -> Forall no_fake l ->
  run enc_ops l w = fold_left enc_store (tokens_of l) w.
Proof.
  unfold run. revert w; induction l as [|i l IH]; intros w Hw H; [reflexivity|].
  inversion H as [|? ? Hn Hl]; subst. cbn [fold_left tokens_of flat_map].
  destruct (enc_item_later i Hn w Hw) as [(_ & Hw' & _) E]. destruct i as [t|b|ls].
  - cbn [run_item app] in *. apply IH; auto.
  - destruct Hn.
  - rewrite E. cbn [app]. apply IH; assumption.
Qed.

(** ** Recording and replay *)
Lemma rec_store_storage ts w : r_storage (fold_left rec_store ts w) = r_storage w ++ ts.
Proof.
  revert w; induction ts as [|t ts IH]; intros w; cbn [fold_left]; [now rewrite app_nil_r|].
  rewrite IH. unfold rec_store. dlr; cbn. now rewrite <- app_assoc.
Qed.

Lemma replay_enc l w : Forall no_fake l -> u32 (e_low w) = e_low w ->
  rec_replay enc_store (run rec_ops l rec_new) w = (run enc_ops l w, rec_new).
Proof.
  intros Hl Hw. rewrite rec_run_kept, enc_run_kept by assumption.
  unfold rec_replay. rewrite rec_store_storage. cbn [r_storage rec_new app]. f_equal.
  assert (F : forall ts r, r_fake (fold_left rec_store ts r) = r_fake r).
  { induction ts as [|t ts IH]; intros r; [reflexivity|]. cbn [fold_left]. rewrite IH.
    unfold rec_store. dlr; reflexivity. }
  rewrite F. reflexivity.
Qed.

(** ** Bit counts *)
Definition tell_rel (bits cnt rng : Z) (x : exact) : Prop :=
  rng = x_rng x /\ bits + cnt = x_shift x - 9.

Lemma cnt_all_rel ts : forall w x, x_ok x -> tell_rel (c_bits w) (c_cnt w) (c_rng w) x ->
  Forall valid_token ts ->
  let w' := fold_left cnt_store ts w in
  tell_rel (c_bits w') (c_cnt w') (c_rng w') (x_encode x ts) /\ c_fake w' = c_fake w /\ c_cnt w' = c_cnt w.
Proof.
  induction ts as [|t ts IH]; intros w x Hx [Hr Hb] Hv; cbn [fold_left]; [split; [split|]; auto|].
  inversion Hv as [|? ? H1 H2]; subst.
  specialize (IH (cnt_store w t) (x_step x t) (x_step_ok _ _ Hx H1)). cbn zeta in IH.
  assert (E : tell_rel (c_bits (cnt_store w t)) (c_cnt (cnt_store w t)) (c_rng (cnt_store w t)) (x_step x t)
              /\ c_fake (cnt_store w t) = c_fake w /\ c_cnt (cnt_store w t) = c_cnt w).
  { unfold cnt_store. rewrite Hr. destruct Hx as (Hr' & _). rewrite lr_compute_eq by assumption. cbn [c_bits c_cnt c_rng c_fake r_bits r_cnt r_rng r_fake].
    pose proof (tok_bounds _ _ Hr' H1). unfold rng_ok in Hr'.
    pose proof (lz16_spec (tok_u (x_rng x) t - tok_v (x_rng x) t) ltac:(lia)) as [_ L].
    split; [|split; reflexivity]. split; cbn [x_step x_rng x_shift]; [apply u16_id; lia|lia]. }
  destruct E as (E1 & E2 & E3). destruct (IH E1 H2) as (I1 & I2 & I3).
  split; [exact I1|]. split; congruence.
Qed.

Lemma rec_all_rel ts : forall w x, x_ok x -> tell_rel (r_bits w) (r_cnt w) (r_rng w) x ->
  Forall valid_token ts ->
  let w' := fold_left rec_store ts w in
  tell_rel (r_bits w') (r_cnt w') (r_rng w') (x_encode x ts) /\ r_fake w' = r_fake w /\ r_cnt w' = r_cnt w.
Proof.
  induction ts as [|t ts IH]; intros w x Hx [Hr Hb] Hv; cbn [fold_left]; [split; [split|]; auto|].
  inversion Hv as [|? ? H1 H2]; subst.
  specialize (IH (rec_store w t) (x_step x t) (x_step_ok _ _ Hx H1)). cbn zeta in IH.
  assert (E : tell_rel (r_bits (rec_store w t)) (r_cnt (rec_store w t)) (r_rng (rec_store w t)) (x_step x t)
              /\ r_fake (rec_store w t) = r_fake w /\ r_cnt (rec_store w t) = r_cnt w).
  { unfold rec_store. rewrite Hr. destruct Hx as (Hr' & _). rewrite lr_compute_eq by assumption. cbn [c_bits c_cnt c_rng c_fake r_bits r_cnt r_rng r_fake].
    pose proof (tok_bounds _ _ Hr' H1). unfold rng_ok in Hr'.
    pose proof (lz16_spec (tok_u (x_rng x) t - tok_v (x_rng x) t) ltac:(lia)) as [_ L].
    split; [|split; reflexivity]. split; cbn [x_step x_rng x_shift]; [apply u16_id; lia|lia]. }
  destruct E as (E1 & E2 & E3). destruct (IH E1 H2) as (I1 & I2 & I3).
  split; [exact I1|]. split; congruence.
Qed.

(** Programs with fake bits but with trials reduced to nothing: the common
    behaviour of the three writers. *)
Definition agree (e : encoder) (c : counter) (r : recorder) (x : exact) : Prop :=
  x_ok x /\ enc_rel e x /\ tell_rel (c_bits c) (c_cnt c) (c_rng c) x /\
  tell_rel (r_bits r) (r_cnt r) (r_rng r) x /\ c_cnt c = -9 /\ r_cnt r = -9 /\
  e_fake e = c_fake c /\ e_fake e = r_fake r.

Lemma agree_new : agree enc_new cnt_new rec_new x_new.
Proof.
  repeat split; cbn; try lia; try constructor; try apply x_new_ok; try apply enc_new_rel.
Qed.

Lemma enc_rel_low w x : x_ok x -> enc_rel w x -> u32 (e_low w) = e_low w.
Proof.
  intros (Hr & _) (Erng & Hc & _ & _ & Hl0 & Hl1 & _). apply u32_id. unfold rng_ok in Hr.
  assert (2 ^ (25 + e_cnt w) <= 2 ^ 24) by (apply pow2_le; lia).
  change (2 ^ 24) with 16777216 in *. change (2 ^ 32) with 4294967296. lia.
Qed.

Lemma agree_put e c r x t : agree e c r x -> valid_token t ->
  agree (enc_store e t) (cnt_store c t) (rec_store r t) (x_step x t).
Proof.
  intros (Hx & He & Hc & Hr & C1 & C2 & F1 & F2) Ht.
  destruct (cnt_all_rel [t] c x Hx Hc (Forall_cons _ Ht (Forall_nil _))) as (A1 & A2 & A3).
  destruct (rec_all_rel [t] r x Hx Hr (Forall_cons _ Ht (Forall_nil _))) as (B1 & B2 & B3).
  cbn [fold_left x_encode] in *. destruct (enc_store_later e t) as (E1 & _).
  split; [apply x_step_ok; assumption|]. split; [apply enc_store_rel; assumption|].
  split; [exact A1|]. split; [exact B1|]. repeat split; congruence.
Qed.

(** Runs of arbitrary programs, trials and fake bits included: the counter
    never restores cnt (it never changes), nobody restores the fake bits. *)
Definition enc_more (w w' : encoder) : Prop := exists more, e_precarry w' = e_precarry w ++ more.
Definition rec_more (w w' : recorder) : Prop := exists more, r_storage w' = r_storage w ++ more.

Lemma agree_item i : tok_ok i -> forall e c r x, agree e c r x ->
  (exists x', agree (run_item enc_ops i e) (run_item cnt_ops i c) (run_item rec_ops i r) x' /\
              match i with Trials _ => x' = x | _ => True end) /\
  enc_more e (run_item enc_ops i e) /\ rec_more r (run_item rec_ops i r).
Proof.
  induction i as [t|b|ls IH] using item_ind2; intros Hi e c r x Ha; cbn [run_item].
  - split; [|split].
    + exists (x_step x t). split; [apply agree_put; assumption|exact I].
    + destruct (enc_store_later e t) as (_ & _ & m & E). exists m. exact E.
    + exists [t]. cbn [wo_store rec_ops]. unfold rec_store. dlr. reflexivity.
  - split; [|split].
    + exists x. destruct Ha as (Hx & He & Hc & Hr & C1 & C2 & F1 & F2).
      split; [|exact I]. repeat split; cbn; try assumption; try lia; try apply Hx; try apply He; try apply Hc; try apply Hr.
    + exists []. cbn. now rewrite app_nil_r.
    + exists []. cbn. now rewrite app_nil_r.
  - cbn [tok_ok] in Hi; apply all_all_Forall in Hi. cbn [wo_rb wo_ck enc_ops cnt_ops rec_ops].
    set (fe := fun w0 l => enc_rollback (fold_left (fun w i => run_item enc_ops i w) l w0) (enc_checkpoint e)).
    set (fc := fun w0 l => cnt_rollback (fold_left (fun w i => run_item cnt_ops i w) l w0) (cnt_checkpoint c)).
    set (fr := fun w0 l => rec_rollback (fold_left (fun w i => run_item rec_ops i w) l w0) (rec_checkpoint r)).
    assert (G : forall e' c' r',
       agree e' c' r' x ->
       e_precarry e' = e_precarry e -> e_low e' = e_low e -> e_rng e' = e_rng e -> e_cnt e' = e_cnt e ->
       c_bits c' = c_bits c -> c_rng c' = c_rng c ->
       r_bits r' = r_bits r -> r_rng r' = r_rng r -> r_storage r' = r_storage r -> r_cnt r' = r_cnt r ->
       agree (fold_left fe ls e') (fold_left fc ls c') (fold_left fr ls r') x /\
       e_precarry (fold_left fe ls e') = e_precarry e /\ r_storage (fold_left fr ls r') = r_storage r).
    { induction IH as [|l ls Hl Hls IHls]; intros e' c' r' Ha' P1 P2 P3 P4 P5 P6 P7 P8 P9 P10;
        [split; [exact Ha'|split; assumption]|].
      inversion Hi as [|? ? Hil Hils]; subst. cbn [fold_left].
      assert (L : exists x', agree (fold_left (fun w i => run_item enc_ops i w) l e')
                          (fold_left (fun w i => run_item cnt_ops i w) l c')
                          (fold_left (fun w i => run_item rec_ops i w) l r') x' /\
                  enc_more e' (fold_left (fun w i => run_item enc_ops i w) l e') /\
                  rec_more r' (fold_left (fun w i => run_item rec_ops i w) l r')).
      { clear - Hl Hil Ha'. revert e' c' r' x Ha'.
        induction Hl as [|i l Hi0 Hl IH]; intros e' c' r' x Ha'.
        - exists x. split; [exact Ha'|]. split; exists []; cbn; now rewrite app_nil_r.
        - inversion Hil as [|? ? H1 H2]; subst. cbn [fold_left].
          destruct (Hi0 H1 e' c' r' x Ha') as ((x1 & A1 & _) & (m1 & M1) & (n1 & N1)).
          destruct (IH H2 _ _ _ _ A1) as (x2 & A2 & (m2 & M2) & (n2 & N2)).
          exists x2. split; [exact A2|]. split.
          + exists (m1 ++ m2). rewrite M2, M1. now rewrite app_assoc.
          + exists (n1 ++ n2). rewrite N2, N1. now rewrite app_assoc. }
      destruct L as (x' & AL & (m & M) & (n & N)).
      pose proof Ha as (Hx & He & Hc & Hr & C1 & C2 & F1 & F2).
      apply IHls; try assumption.
      - destruct AL as (_ & _ & _ & _ & D1 & D2 & G1 & G2).
        unfold fe, fc, fr.
        split; [exact Hx|]. split.
        { unfold enc_rel, enc_rollback, enc_checkpoint; cbn. rewrite M, P1, firstn_zlen_app.
          rewrite (enc_rel_low e x Hx He). exact He. }
        split; [unfold tell_rel in *; cbn in *; rewrite D1; rewrite C1 in Hc; exact Hc|].
        split; [exact Hr|]. cbn. repeat split; assumption.
      - unfold fe, enc_rollback, enc_checkpoint; cbn. rewrite M, P1. apply firstn_zlen_app.
      - unfold fe, enc_rollback, enc_checkpoint; cbn. apply (enc_rel_low e x Hx He).
      - reflexivity.
      - reflexivity.
      - reflexivity.
      - reflexivity.
      - reflexivity.
      - reflexivity.
      - unfold fr, rec_rollback, rec_checkpoint; cbn. rewrite N, P9. apply firstn_zlen_app.
      - reflexivity. }
    destruct (G e c r Ha) as (A & B1 & B2); try reflexivity.
    split; [exists x; split; [exact A|reflexivity]|].
    split; exists []; rewrite app_nil_r; assumption.
Qed.

Lemma agree_run l : Forall tok_ok l -> forall e c r x, agree e c r x ->
  exists x', agree (run enc_ops l e) (run cnt_ops l c) (run rec_ops l r) x'.
Proof.
  unfold run. induction 1 as [|i l Hi Hl IH]; intros e c r x Ha; [exists x; exact Ha|].
  cbn [fold_left]. destruct (agree_item i Hi e c r x Ha) as ((x1 & A1 & _) & _).
  apply (IH _ _ _ _ A1).
Qed.

Lemma agree_tell e c r x : agree e c r x ->
  enc_tell e = cnt_tell c /\ enc_tell e = rec_tell r /\
  enc_tell_frac e = cnt_tell_frac c /\ enc_tell_frac e = rec_tell_frac r.
Proof.
  intros (Hx & He & [Hc1 Hc2] & [Hr1 Hr2] & C1 & C2 & F1 & F2).
  destruct He as (E1 & E2 & E3 & _).
  assert (S1 : zlen (e_precarry e) * 8 + e_cnt e = c_bits c + c_cnt c) by lia.
  assert (S2 : zlen (e_precarry e) * 8 + e_cnt e = r_bits r + r_cnt r) by lia.
  unfold enc_tell, cnt_tell, rec_tell, enc_tell_frac, cnt_tell_frac, rec_tell_frac, tell_frac_of, tell_of.
  rewrite S1, F1 at 1. rewrite <- S1, S2, <- F1, F2. rewrite E1, Hc1, Hr1. 
  repeat split; congruence.
Qed.

(** ** Length of the finished stream; monotonicity *)
Lemma enc_tell_shift e x : x_ok x -> enc_rel e x -> e_fake e = 0 -> x_shift x < 2 ^ 31 ->
  enc_tell e = x_shift x + 1.
Proof.
  intros (_ & _ & Hs & _) (_ & Hc & Hsh & _) Hf Hlim. unfold enc_tell, tell_of. rewrite Hf.
  rewrite u32_id; [change (0 / 256) with 0; lia|].
  change (2 ^ 31) with 2147483648 in *. change (2 ^ 32) with 4294967296. lia.
Qed.

Lemma done_length e x data : x_ok x -> enc_rel e x -> enc_done e = Some data ->
  zlen data = (zlen (e_precarry e) * 8 + e_cnt e + 10 + 7) / 8.
Proof.
  intros Hx He Hd. destruct (enc_done_spec e x Hx He) as (out & k & E & _ & Zl & K & _).
  rewrite E in Hd. injection Hd as <-. dlia.
Qed.

(** Fractional bits: [frac_loop] is monotone in the range and below 8. *)
Lemma frac_iter_range r : 2 ^ 15 <= r < 2 ^ 16 ->
  let q := (r * r) / 2 ^ 15 in let b := q / 2 ^ 16 in
  (b = 0 \/ b = 1) /\ 2 ^ 15 <= q / 2 ^ b < 2 ^ 16.
Proof.
  intros Hr q b. change (2 ^ 15) with 32768 in *. change (2 ^ 16) with 65536 in *.
  assert (Hq : 32768 <= q < 131072).
  { unfold q. split; [apply Z.div_le_lower_bound|apply Z.div_lt_upper_bound]; nia. }
  assert (Hb : b = 0 \/ b = 1) by (unfold b; clearbody q; dlia).
  split; [exact Hb|]. unfold b in *. clearbody q. destruct Hb as [E|E]; rewrite E.
  - change (2 ^ 0) with 1. rewrite Z.div_1_r. dlia.
  - change (2 ^ 1) with 2. dlia.
Qed.

Lemma frac_loop_mono n : forall l1 l2 r1 r2,
  2 ^ 15 <= r1 < 2 ^ 16 -> 2 ^ 15 <= r2 < 2 ^ 16 ->
  (l1 < l2 \/ (l1 = l2 /\ r1 <= r2)) ->
  frac_loop n l1 r1 <= frac_loop n l2 r2 /\ (l1 < l2 -> n = O -> frac_loop n l1 r1 < frac_loop n l2 r2).
Proof.
  induction n as [|n IH]; intros l1 l2 r1 r2 H1 H2 H; [cbn; lia|].
  cbn [frac_loop].
  pose proof (frac_iter_range r1 H1) as (B1 & R1). pose proof (frac_iter_range r2 H2) as (B2 & R2).
  split; [|discriminate].
  set (q1 := r1 * r1 / 2 ^ 15) in *. set (q2 := r2 * r2 / 2 ^ 15) in *.
  cbn zeta in *.
  apply IH; [exact R1|exact R2|].
  destruct H as [H|[-> Hr]]; [lia|].
  assert (q1 <= q2) by (apply Z.div_le_mono; [lia|]; clear - H1 Hr; apply Z.mul_le_mono_nonneg; lia).
  assert (q1 / 2 ^ 16 <= q2 / 2 ^ 16) by (apply Z.div_le_mono; lia).
  destruct (Z.eq_dec (q1 / 2 ^ 16) (q2 / 2 ^ 16)) as [E|]; [|lia].
  rewrite E. right. split; [reflexivity|]. apply Z.div_le_mono; [|assumption].
  apply Z.pow_pos_nonneg; lia.
Qed.

Lemma frac_loop_range n : forall l r, 2 ^ 15 <= r < 2 ^ 16 ->
  l * 2 ^ Z.of_nat n <= frac_loop n l r < (l + 1) * 2 ^ Z.of_nat n.
Proof.
  induction n as [|n IH]; intros l r Hr; [cbn; lia|].
  cbn [frac_loop]. pose proof (frac_iter_range r Hr) as (B & R). cbn zeta in *.
  set (q := r * r / 2 ^ 15) in *.
  specialize (IH (2 * l + q / 2 ^ 16) (q / 2 ^ (q / 2 ^ 16)) R).
  rewrite Nat2Z.inj_succ, Z.pow_succ_r by lia.
  assert (0 < 2 ^ Z.of_nat n) by (apply Z.pow_pos_nonneg; lia). nia.
Qed.

Lemma frac_mono x t : x_ok x -> valid_token t ->
  frac_compute (x_shift x + 1) (x_rng x)
  <= frac_compute (x_shift (x_step x t) + 1) (x_rng (x_step x t)).
Proof.
  intros Hx Ht. pose proof (x_step_ok x t Hx Ht) as Hx'. pose proof (x_d_range x t Hx Ht) as Hd.
  unfold frac_compute.
  assert (R := proj1 Hx). assert (R' := proj1 Hx'). unfold rng_ok in *.
  pose proof (frac_loop_range 3 0 (x_rng x) R) as F1.
  pose proof (frac_loop_range 3 0 (x_rng (x_step x t)) R') as F2.
  change (2 ^ Z.of_nat 3) with 8 in *.
  destruct (Z.eq_dec (x_d x t) 0) as [E|E].
  - assert (Hle : x_rng (x_step x t) <= x_rng x).
    { change (x_rng (x_step x t)) with ((tok_u (x_rng x) t - tok_v (x_rng x) t) * 2 ^ x_d x t). rewrite E. pose proof (tok_bounds _ _ (proj1 Hx) Ht). lia. }
    pose proof (frac_loop_mono 3 0 0 _ _ R' R (or_intror (conj eq_refl Hle))) as [M _].
    assert (x_shift (x_step x t) = x_shift x) by (change (x_shift (x_step x t)) with (x_shift x + x_d x t); lia). lia.
  - assert (x_shift (x_step x t) = x_shift x + x_d x t) by reflexivity. lia.
Qed.

(** ** The cost estimate of a symbol is the growth of [tell_frac] *)
Lemma frac_compute_chk_some n r : 2 ^ 15 <= r < 2 ^ 16 -> (1 <= n \/ (n = 0 /\ r = 2 ^ 15)) ->
  frac_compute_chk n r = Some (frac_compute n r).
Proof.
  intros Hr Hn. unfold frac_compute_chk, frac_compute.
  pose proof (frac_loop_range 3 0 r Hr) as F. change (2 ^ Z.of_nat 3) with 8 in F.
  destruct Hn as [Hn|[-> ->]].
  - destruct (Z.ltb_spec (n * 8) (frac_loop 3 0 r)); [lia|reflexivity].
  - reflexivity.
Qed.

(** Before the first shift the range is still the initial one. *)
Definition fresh_ok (x : exact) : Prop := x_shift x = 0 -> x_rng x = 2 ^ 15.

Lemma fresh_step x t : x_ok x -> valid_token t -> fresh_ok x -> fresh_ok (x_step x t).
Proof.
  intros Hx Ht Hf E. pose proof (x_d_range x t Hx Ht) as Hd.
  pose proof Hx as (Hr & _ & Hs & _).
  change (x_shift (x_step x t)) with (x_shift x + x_d x t) in E.
  assert (E1 : x_shift x = 0) by lia. assert (E2 : x_d x t = 0) by lia.
  specialize (Hf E1). pose proof (tok_bounds _ _ Hr Ht) as (B1 & B2 & B3).
  change (x_rng (x_step x t)) with ((tok_u (x_rng x) t - tok_v (x_rng x) t) * 2 ^ x_d x t).
  unfold x_d in *.
  pose proof (lz16_spec (tok_u (x_rng x) t - tok_v (x_rng x) t)) as L.
  rewrite E2 in *. change (2 ^ 0) with 1 in *. unfold rng_ok in Hr. lia.
Qed.

Definition enc_fresh (w : encoder) : Prop := e_cnt w = -9 -> e_precarry w = [].

Lemma enc_fresh_step w x t : x_ok x -> enc_rel w x -> valid_token t -> enc_fresh w ->
  enc_fresh (enc_store w t).
Proof.
  intros Hx He Ht Hf. pose proof (x_d_range x t Hx Ht) as Hd. unfold x_d in Hd.
  destruct He as (Erng & Hc & _). destruct Hx as (Hr & _).
  unfold enc_fresh, enc_store. rewrite Erng, lr_compute_eq by assumption.
  set (d := lz16 _) in *.
  destruct (Z.leb_spec 0 (e_cnt w + d)).
  - destruct (Z.leb_spec 8 (e_cnt w + d)); cbn [e_cnt e_precarry]; lia.
  - cbn [e_cnt e_precarry]. intros E. apply Hf. lia.
Qed.

Definition enc_inv (w : encoder) : Prop := exists x, x_ok x /\ enc_rel w x /\ fresh_ok x /\ enc_fresh w.

Lemma enc_inv_new : enc_inv enc_new.
Proof.
  exists x_new. split; [apply x_new_ok|]. split; [apply enc_new_rel|]. split; intros _; reflexivity.
Qed.
Lemma enc_inv_store w t : enc_inv w -> valid_token t -> enc_inv (enc_store w t).
Proof.
  intros (x & H1 & H2 & H3 & H4) Ht. exists (x_step x t).
  split; [apply x_step_ok; assumption|]. split; [apply enc_store_rel; assumption|].
  split; [apply fresh_step; assumption|]. eapply enc_fresh_step; eassumption.
Qed.
Lemma enc_inv_all ts w : enc_inv w -> Forall valid_token ts -> enc_inv (enc_all w ts).
Proof.
  unfold enc_all. revert w; induction ts as [|t ts IH]; intros w Hw H; [exact Hw|].
  inversion H; subst. cbn [fold_left]. apply IH; [apply enc_inv_store|]; assumption.
Qed.

Lemma symbol_bits_ok w icdf s : enc_inv w -> valid_icdf icdf -> (s < length icdf)%nat ->
  zlen (e_precarry w) < 2 ^ 28 - 2 ->
  symbol_bits (e_rng w) (e_cnt w) s icdf
  = Some (enc_tell_frac (enc_store w (symbol_token s icdf)) - enc_tell_frac w).
Proof.
  intros (x & Hx & He & Hfx & Hfw) Hv Hs Hlim.
  set (t := symbol_token s icdf).
  assert (Ht : valid_token t) by (apply symbol_token_valid; assumption).
  pose proof (x_step_ok x t Hx Ht) as Hx'. pose proof (enc_store_rel w x t Hx He Ht) as He'.
  pose proof (fresh_step x t Hx Ht Hfx) as Hfx'. pose proof (enc_fresh_step w x t Hx He Ht Hfw) as Hfw'.
  pose proof (x_d_range x t Hx Ht) as Hd. pose proof (frac_mono x t Hx Ht) as Hmono.
  destruct He as (Erng & Hc & Hsh & _). destruct He' as (Erng' & Hc' & Hsh' & _).
  pose proof Hx as (Hr & _ & HxS & _). pose proof Hx' as (Hr' & _ & HxS' & _).
  pose proof (tok_bounds _ _ Hr Ht) as (B1 & B2 & B3).
  assert (Hn := zlen_nonneg _ (e_precarry w)).
  assert (Hn' := zlen_nonneg _ (e_precarry (enc_store w t))).
  (* the range after the symbol *)
  assert (Er : (if (0 <? s)%nat
     then (e_rng w / 256 * (nth (s - 1) icdf 0 / 2 ^ EC_PROB_SHIFT)) / 2 ^ (7 - EC_PROB_SHIFT)
          - (e_rng w / 256 * (nth s icdf 0 / 2 ^ EC_PROB_SHIFT)) / 2 ^ (7 - EC_PROB_SHIFT) + EC_MIN_PROB
     else e_rng w - (e_rng w / 256 * (nth s icdf 0 / 2 ^ EC_PROB_SHIFT)) / 2 ^ (7 - EC_PROB_SHIFT)
          - (zlen icdf - Z.of_nat s - 1) * EC_MIN_PROB) = tok_u (x_rng x) t - tok_v (x_rng x) t).
  { rewrite Erng. unfold tok_u, tok_v, t, symbol_token; cbn [t_fl t_fh t_nms].
    unfold EC_PROB_SHIFT, EC_MIN_PROB. change (2 ^ 6) with 64. change (2 ^ (7 - 6)) with 2.
    destruct (Nat.ltb_spec 0 s).
    - pose proof (valid_entry icdf (s - 1) Hv ltac:(lia)).
      destruct (Z.leb_spec 32768 (nth (s - 1) icdf 0)); [lia|]. lia.
    - change (32768 <=? 32768) with true. cbv iota. lia. }
  unfold symbol_bits. rewrite Er. clear Er.
  set (r := tok_u (x_rng x) t - tok_v (x_rng x) t) in *.
  assert (Ed : lz16 r = x_d x t) by reflexivity. rewrite Ed. set (d := x_d x t) in *.
  assert (ER : e_rng (enc_store w t) = r * 2 ^ d) by (rewrite Erng'; reflexivity).
  assert (ES : x_shift (x_step x t) = x_shift x + d) by reflexivity.
  rewrite frac_compute_chk_some; [|rewrite Erng; exact Hr|].
  2:{ destruct (Z.eq_dec (e_cnt w) (-9)) as [E|]; [|left; lia]. right. split; [lia|].
      rewrite Erng. apply Hfx. rewrite (Hfw E), zlen_nil in Hsh. lia. }
  (* the bit count *)
  assert (Eb : exists bits sh,
     (if 0 <=? e_cnt w + d
      then let '(bits, c) := if 8 <=? e_cnt w + d then (8, e_cnt w + 16 - 8) else (0, e_cnt w + 16) in
           (bits + 8, c + d - 24)
      else (0, e_cnt w + d)) = (bits, sh) /\
     bits + sh = e_cnt w + d).
  { destruct (Z.leb_spec 0 (e_cnt w + d)); [destruct (Z.leb_spec 8 (e_cnt w + d))|];
      eexists; eexists; (split; [reflexivity|]); lia. }
  destruct Eb as (bits & sh & Eb & Esum). rewrite Eb. clear Eb.
  rewrite <- ER.
  rewrite frac_compute_chk_some; [|rewrite Erng'; exact Hr'|].
  2:{ rewrite Esum. destruct (Z.eq_dec (e_cnt w + d) (-9)) as [E|]; [|left; lia]. right. split; [lia|].
      rewrite Erng'. apply Hfx'. rewrite ES. assert (E9 : e_cnt w = -9) by lia.
      rewrite (Hfw E9), zlen_nil in Hsh. lia. }
  rewrite Esum. unfold frac_compute in *.
  match goal with |- context [?a <? ?b] => destruct (Z.ltb_spec a b) as [Hlt|_] end.
  { rewrite Erng, Erng' in Hlt. lia. }
  f_equal. unfold enc_tell_frac, tell_frac_of, tell_of, frac_compute.
  assert (Ef : e_fake (enc_store w t) = e_fake w) by apply (enc_store_later w t).
  rewrite Ef. rewrite !u32_id.
  - rewrite Erng', Erng. lia.
  - change (2 ^ 28) with 268435456 in *. change (2 ^ 32) with 4294967296. lia.
  - change (2 ^ 28) with 268435456 in *. change (2 ^ 32) with 4294967296. lia.
Qed.

(** Neither count decreases when a token is stored. *)
Lemma tell_mono w t : enc_inv w -> valid_token t -> zlen (e_precarry w) < 2 ^ 28 - 2 ->
  enc_tell w <= enc_tell (enc_store w t) /\ enc_tell_frac w <= enc_tell_frac (enc_store w t).
Proof.
  intros (x & Hx & He & _) Ht Hlim.
  pose proof (x_step_ok x t Hx Ht) as Hx'. pose proof (enc_store_rel w x t Hx He Ht) as He'.
  pose proof (x_d_range x t Hx Ht) as Hd. pose proof (frac_mono x t Hx Ht) as Hmono.
  destruct He as (Erng & Hc & Hsh & _). destruct He' as (Erng' & Hc' & Hsh' & _).
  assert (ES : x_shift (x_step x t) = x_shift x + x_d x t) by reflexivity.
  assert (Ef : e_fake (enc_store w t) = e_fake w) by apply (enc_store_later w t).
  assert (Hn := zlen_nonneg _ (e_precarry w)).
  assert (Hn' := zlen_nonneg _ (e_precarry (enc_store w t))).
  unfold enc_tell, enc_tell_frac, tell_frac_of, tell_of, frac_compute in *.
  rewrite Ef, Erng, Erng'. change (2 ^ 28) with 268435456 in *.
  rewrite !u32_id by (change (2 ^ 32) with 4294967296; lia). lia.
Qed.

Lemma tell_length w data : enc_inv w -> e_fake w = 0 -> zlen (e_precarry w) < 2 ^ 28 - 2 ->
  enc_done w = Some data -> zlen data = (enc_tell w + 7) / 8.
Proof.
  intros (x & Hx & He & _) Hf Hlim Hd. rewrite (done_length w x data Hx He Hd).
  destruct He as (_ & Hc & _). assert (Hn := zlen_nonneg _ (e_precarry w)).
  unfold enc_tell, tell_of. rewrite Hf, u32_id.
  - change (0 / 256) with 0. f_equal. lia.
  - change (2 ^ 28) with 268435456 in *. change (2 ^ 32) with 4294967296. lia.
Qed.

Lemma enc_all_fake ts : forall w, e_fake (enc_all w ts) = e_fake w.
Proof.
  unfold enc_all. induction ts as [|t ts IH]; intros w; [reflexivity|]. cbn [fold_left].
  rewrite IH. apply (enc_store_later w t).
Qed.
