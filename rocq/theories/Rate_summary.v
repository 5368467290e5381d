(** Parsing a summary. *)
From Verif Require Import Base LogExp_model Quant_model Quant_proof Quant_sel Quant_run Obu_proof Rate_model Rate_spec Rate_bytes.

Lemma i32c_none x : ~ (- 2 ^ 31 <= x < 2 ^ 31) -> i32c x = None.
Proof. intros H. unfold i32c. destruct (Z.leb_spec (- 2 ^ 31) x); destruct (Z.ltb_spec x (2 ^ 31)); cbn; try lia; reflexivity. Qed.

Lemma at_pos (pre x post : list Z) : pre ++ x ++ post = (pre ++ x) ++ post. Proof. apply app_assoc. Qed.

Lemma parse_counts_ok k : forall z pre post fill total, Forall byte z -> length z = (4 * k)%nat -> 0 <= total < 2 ^ 31 ->
  exists d r, parse_counts k (Des (zlen pre) fill (pre ++ z ++ post)) total = Some (d, r) /\
    d_fill d = fill /\ d_buf d = pre ++ z ++ post /\
    match r with
    | inr (l, t) => d_pos d = zlen pre + zlen z /\ flat_map (le 4) l = z /\ length l = k /\ Forall (fun n => 0 <= n) l /\
        t = total + sum l /\ t < 2 ^ 31
    | inl _ => forall l, length l = k -> Forall (fun n => 0 <= n) l -> total + sum l < 2 ^ 31 -> flat_map (le 4) l <> z
    end.
Proof.
  induction k as [|k IH]; intros z pre post fill total F L Ht.
  - destruct z; [|discriminate]. cbn [parse_counts]. eexists _, _. split; [reflexivity|]. cbn [d_fill d_buf d_pos].
    split; [reflexivity|]. split; [reflexivity|]. split; [rewrite zlen_nil; lia|]. repeat split; [constructor|cbn; lia|lia].
  - destruct (split_bytes 4 z ltac:(lia) F) as (x & y & -> & Lx & Ly & Fx & Fy). rewrite app_length in L, Ly.
    cbn [parse_counts]. rewrite <- app_assoc.
    destruct (unbuffer_small 4 x pre (y ++ post) fill Fx Lx ltac:(lia)) as [U R]. rewrite U. cbn [fst snd]. cbv zeta.
    destruct (sw32_le x Lx Fx) as [Rn En].
    set (n := sw 32 (le_val x)) in *. clearbody n.
    assert (Hd : forall l, length l = S k -> Forall (fun n => 0 <= n) l -> total + sum l < 2 ^ 31 -> flat_map (le 4) l = x ++ y ->
       exists l', l = n :: l' /\ flat_map (le 4) l' = y /\ 0 <= n /\ Forall (fun n => 0 <= n) l' /\ 0 <= sum l').
    { intros [|a l'] Ll Fl Sl E; [discriminate|]. cbn [flat_map] in E. apply app_inj_len in E; [|rewrite le_length; lia].
      destruct E as [E1 E2]. pose proof (Forall_inv Fl) as A0. cbv beta in A0. pose proof (Forall_inv_tail Fl) as Fl'.
      assert (S0 : 0 <= sum l'). { clear - Fl'. induction Fl'; cbn [sum fold_right] in *; [lia|]. fold (sum l) in *. lia. }
      cbn [sum fold_right] in Sl. fold (sum l') in Sl.
      assert (a = n). { rewrite <- En in E1. apply (f_equal (fun l => sw 32 (le_val l))) in E1. rewrite !sw_le_back in E1 by lia. exact E1. }
      subst a. exists l'. auto. }
    destruct (Z.ltb_spec n 0) as [Ng|Nn].
    + eexists _, _. split; [reflexivity|]. cbn [d_fill d_buf]. split; [reflexivity|]. split; [reflexivity|].
      intros l A B C D. destruct (Hd l A B C D) as (_ & _ & _ & N & _). lia.
    + destruct (Z.lt_ge_cases (total + n) (2 ^ 31)) as [Lt|Ge].
      * rewrite i32c_ok by lia.
        destruct (IH y (pre ++ x) post fill (total + n) Fy ltac:(lia) ltac:(lia)) as (d & r & E & Fd & Bd & Rd).
        replace (zlen pre + Z.of_nat 4) with (zlen (pre ++ x)) by (rewrite zlen_app; unfold zlen; lia).
        rewrite at_pos. rewrite E. cbn [fst snd]. rewrite <- at_pos in Bd.
        destruct r as [u|[l t]].
        -- eexists _, _. split; [reflexivity|]. split; [exact Fd|]. split; [rewrite Bd, <- ?app_assoc; reflexivity|].
           intros l A B C D. destruct (Hd l A B C D) as (l' & -> & El & _ & Fl & _).
           apply (Rd l'); [cbn in A; lia|exact Fl| |exact El]. cbn [sum fold_right] in C. fold (sum l') in C. lia.
        -- destruct Rd as (P & El & Ll & Fl & Et & Lt'). eexists _, _. split; [reflexivity|]. cbn [fst snd].
           split; [exact Fd|]. split; [rewrite Bd, <- ?app_assoc; reflexivity|].
           split; [rewrite P, !zlen_app; lia|]. split; [cbn [flat_map]; rewrite En, El; reflexivity|].
           split; [cbn; lia|]. split; [constructor; [exact Nn|exact Fl]|]. cbn [sum fold_right]. fold (sum l). lia.
      * rewrite i32c_none by lia. eexists _, _. split; [reflexivity|]. cbn [d_fill d_buf]. split; [reflexivity|]. split; [reflexivity|].
        intros l A B C D. destruct (Hd l A B C D) as (l' & -> & _ & _ & _ & S0). cbn [sum fold_right] in C. fold (sum l') in C. lia.
Qed.

Lemma parse_exps_ok k : forall z pre post fill, Forall byte z -> length z = k ->
  parse_exps k (Des (zlen pre) fill (pre ++ z ++ post)) = Some (Des (zlen pre + zlen z) fill (pre ++ z ++ post), z) /\
  flat_map (le 1) z = z.
Proof.
  induction k as [|k IH]; intros z pre post fill F L.
  - destruct z; [|discriminate]. cbn [parse_exps]. rewrite zlen_nil, Z.add_0_r. auto.
  - destruct z as [|b z]; [discriminate|]. pose proof (Forall_inv F) as B. pose proof (Forall_inv_tail F) as F'. unfold byte in B.
    cbn [parse_exps]. change (pre ++ (b :: z) ++ post) with (pre ++ [b] ++ (z ++ post)).
    destruct (unbuffer_small 1 [b] pre (z ++ post) fill) as [U R]; [repeat constructor; apply B|reflexivity|lia|].
    rewrite U. cbn [fst snd]. replace (zlen pre + Z.of_nat 1) with (zlen (pre ++ [b])) by (rewrite zlen_app; reflexivity).
    destruct (IH z (pre ++ [b]) post fill F' ltac:(cbn in L; lia)) as [E E'].
    rewrite (at_pos pre [b]), E. cbn [fst snd]. split.
    + rewrite zlen_app, (zlen_cons _ b z). f_equal. f_equal; [f_equal; cbn; lia|]. f_equal. cbn [le_val]. unfold u8. rewrite Z.mod_small; lia.
    + change (flat_map (le 1) (b :: z)) with ([b mod 256] ++ flat_map (le 1) z). rewrite E', Z.mod_small by lia. reflexivity.
Qed.

Lemma sw64_le x : length x = 8%nat -> Forall byte x ->
  - 2 ^ 63 <= sw 64 (le_val x) < 2 ^ 63 /\ le 8 (sw 64 (le_val x)) = x.
Proof.
  intros L F. pose proof (le_val_range x F) as R. unfold zlen in R. rewrite L in R. change (256 ^ Z.of_nat 8) with (2 ^ 64) in R.
  unfold sw. change (2 ^ (64 - 1)) with (2 ^ 63). pose proof (Z.mod_pos_bound (le_val x + 2 ^ 63) (2 ^ 64) ltac:(lia)) as M.
  split; [lia|]. rewrite <- L at 1. apply le_of_val; [exact F|]. unfold zlen. rewrite L. change (256 ^ Z.of_nat 8) with (2 ^ 64).
  rewrite Zminus_mod_idemp_l. replace (le_val x + 2 ^ 63 - 2 ^ 63) with (le_val x) by ring. apply Z.mod_small, R.
Qed.
Lemma sw64_back v : 0 <= v < 2 ^ 63 -> sw 64 (le_val (le 8 v)) = v.
Proof.
  intros H. rewrite le_val_le. change (256 ^ Z.of_nat 8) with (2 ^ 64). unfold sw. change (2 ^ (64 - 1)) with (2 ^ 63).
  rewrite Zplus_mod_idemp_l. rewrite Z.mod_small by lia. lia.
Qed.

Lemma parse_sums_ok k : forall z pre post fill, Forall byte z -> length z = (8 * k)%nat ->
  exists d r, parse_sums k (Des (zlen pre) fill (pre ++ z ++ post)) = Some (d, r) /\
    d_fill d = fill /\ d_buf d = pre ++ z ++ post /\
    match r with
    | inr l => flat_map (le 8) l = z /\ length l = k /\ Forall (fun n => 0 <= n < 2 ^ 63) l
    | inl _ => forall l, length l = k -> Forall (fun n => 0 <= n < 2 ^ 63) l -> flat_map (le 8) l <> z
    end.
Proof.
  induction k as [|k IH]; intros z pre post fill F L.
  - destruct z; [|discriminate]. cbn [parse_sums]. eexists _, _. split; [reflexivity|]. cbn [d_fill d_buf d_pos]. auto.
  - destruct (split_bytes 8 z ltac:(lia) F) as (x & y & -> & Lx & Ly & Fx & Fy). rewrite app_length in L, Ly.
    cbn [parse_sums]. rewrite <- app_assoc.
    rewrite (unbuffer_ok 8 x pre (y ++ post) fill Fx Lx ltac:(lia)). cbn [fst snd].
    destruct (sw64_le x Lx Fx) as [Rn En]. set (n := sw 64 (le_val x)) in *. clearbody n.
    assert (Hd : forall l, length l = S k -> Forall (fun n => 0 <= n < 2 ^ 63) l -> flat_map (le 8) l = x ++ y ->
       exists l', l = n :: l' /\ flat_map (le 8) l' = y /\ 0 <= n /\ Forall (fun n => 0 <= n < 2 ^ 63) l').
    { intros [|a l'] Ll Fl E; [discriminate|]. cbn [flat_map] in E. apply app_inj_len in E; [|rewrite le_length; lia].
      destruct E as [E1 E2]. pose proof (Forall_inv Fl) as A0. cbv beta in A0. pose proof (Forall_inv_tail Fl) as Fl'.
      assert (a = n). { rewrite <- En in E1. destruct (Z.lt_ge_cases n 0) as [Ng|Nn].
        - exfalso. apply (f_equal le_val) in E1. rewrite !le_val_le in E1. change (256 ^ Z.of_nat 8) with (2 ^ 64) in E1.
          rewrite (Z.mod_small a) in E1 by lia. rewrite <- (Z.mod_add n 1), Z.mod_small in E1 by lia. lia.
        - apply (f_equal (fun l => sw 64 (le_val l))) in E1. rewrite !sw64_back in E1 by lia. exact E1. }
      subst a. exists l'. repeat split; auto. lia. }
    destruct (Z.ltb_spec n 0) as [Ng|Nn].
    + eexists _, _. split; [reflexivity|]. cbn [d_fill d_buf]. split; [reflexivity|]. split; [reflexivity|].
      intros l A B D. destruct (Hd l A B D) as (_ & _ & _ & N & _). lia.
    + destruct (IH y (pre ++ x) post fill Fy ltac:(lia)) as (d & r & E & Fd & Bd & Rd).
      replace (zlen pre + Z.of_nat 8) with (zlen (pre ++ x)) by (rewrite zlen_app; unfold zlen; lia).
      rewrite at_pos. rewrite E. cbn [fst snd]. rewrite <- at_pos in Bd.
      destruct r as [u|l].
      -- eexists _, _. split; [reflexivity|]. split; [exact Fd|]. split; [rewrite Bd, <- ?app_assoc; reflexivity|].
         intros l A B D. destruct (Hd l A B D) as (l' & -> & El & _ & Fl). apply (Rd l'); [cbn in A; lia|exact Fl|exact El].
      -- destruct Rd as (El & Ll & Fl). eexists _, _. split; [reflexivity|]. split; [exact Fd|].
         split; [rewrite Bd, <- ?app_assoc; reflexivity|]. split; [cbn [flat_map]; rewrite En, El; reflexivity|].
         split; [cbn; lia|]. constructor; [lia|exact Fl].
Qed.

Lemma flat_le_len n l : length (flat_map (le n) l) = (n * length l)%nat.
Proof. induction l as [|x l IH]; cbn [flat_map length]; [lia|]. rewrite app_length, le_length, IH. lia. Qed.

Lemma sum_nonneg l : Forall (fun n => 0 <= n) l -> 0 <= sum l.
Proof. induction 1; cbn [sum fold_right] in *; [lia|]. fold (sum l) in *. lia. Qed.
Lemma flat_le4_inj l : forall l', flat_map (le 4) l = flat_map (le 4) l' -> length l = length l' ->
  Forall (fun n => 0 <= n) l -> Forall (fun n => 0 <= n) l' -> sum l < 2 ^ 31 -> sum l' < 2 ^ 31 -> l = l'.
Proof.
  induction l as [|a l IH]; intros [|b l'] A L F F' T T'; try discriminate; [reflexivity|].
  cbn [flat_map] in A. cbn [sum fold_right] in T, T'. fold (sum l) in T. fold (sum l') in T'.
  apply app_inj_len in A; [|rewrite !le_length; reflexivity]. destruct A as [A1 A2].
  pose proof (Forall_inv F) as F0. apply Forall_inv_tail in F. pose proof (Forall_inv F') as F0'. apply Forall_inv_tail in F'.
  cbv beta in F0, F0'. pose proof (sum_nonneg _ F). pose proof (sum_nonneg _ F').
  apply (f_equal (fun l => sw 32 (le_val l))) in A1. rewrite !sw_le_back in A1 by lia. subst b. f_equal.
  apply IH; auto; try lia.
Qed.

(** Exactly the serializations of valid summaries are accepted. *)
Lemma parse_summary_ok bs fill : Forall byte bs -> length bs = 68%nat ->
  exists d r, parse_summary (Des 0 fill bs) = Some (d, r) /\ d_fill d = fill /\ d_buf d = bs /\
    match r with
    | inr s => valid_summary s /\ summary_bytes s = bs
    | inl _ => forall s, valid_summary s -> summary_bytes s <> bs
    end.
Proof.
  intros F L.
  destruct (split_bytes 4 bs ltac:(lia) F) as (x1 & r1 & -> & L1 & Lr1 & F1 & Fr1). rewrite app_length in L, Lr1.
  destruct (split_bytes 4 r1 ltac:(lia) Fr1) as (x2 & r2 & -> & L2 & Lr2 & F2 & Fr2). rewrite app_length in L, Lr1, Lr2.
  destruct (split_bytes 4 r2 ltac:(lia) Fr2) as (x3 & r3 & -> & L3 & Lr3 & F3 & Fr3). rewrite app_length in L, Lr1, Lr2, Lr3.
  destruct (split_bytes 20 r3 ltac:(lia) Fr3) as (x4 & r4 & -> & L4 & Lr4 & F4 & Fr4). rewrite app_length in L, Lr1, Lr2, Lr3, Lr4.
  destruct (split_bytes 4 r4 ltac:(lia) Fr4) as (x5 & x6 & -> & L5 & L6 & F5 & F6). rewrite app_length in L, Lr1, Lr2, Lr3, Lr4, L6.
  set (whole := x1 ++ x2 ++ x3 ++ x4 ++ x5 ++ x6).
  (* what a matching summary looks like *)
  assert (M : forall s, valid_summary s -> summary_bytes s = whole ->
    le 4 0x50324156 = x1 /\ le 4 1 = x2 /\ le 4 (s_ntus s) = x3 /\ flat_map (le 4) (s_nframes s) = x4 /\
    flat_map (le 1) (s_exp s) = x5 /\ flat_map (le 8) (s_sum s) = x6).
  { intros s V E. unfold summary_bytes, whole in E.
    apply app_inj_len in E; [|rewrite le_length; lia]. destruct E as [E1 E].
    apply app_inj_len in E; [|rewrite le_length; lia]. destruct E as [E2 E].
    apply app_inj_len in E; [|rewrite le_length; lia]. destruct E as [E3 E].
    apply app_inj_len in E; [|rewrite flat_le_len; destruct (vs_nframes s V); lia]. destruct E as [E4 E].
    apply app_inj_len in E; [|rewrite flat_le_len; destruct (vs_exp s V); lia]. tauto. }
  unfold parse_summary.
  destruct (unbuffer_small 4 x1 [] (x2 ++ x3 ++ x4 ++ x5 ++ x6) fill F1 L1 ltac:(lia)) as [U1 R1]. cbn [app] in U1. fold whole in U1.
  change (zlen (@nil Z) + Z.of_nat 4) with 4 in U1. change (zlen (@nil Z)) with 0 in U1. rewrite U1. cbn [fst snd].
  change (256 ^ Z.of_nat 4) with (2 ^ 32) in R1.
  destruct (Z.eqb_spec (le_val x1) MAGIC) as [E1|N1]; cbn [negb].
  2: { eexists _, _. split; [reflexivity|]. split; [reflexivity|]. split; [reflexivity|]. intros s V E.
       destruct (M s V E) as (A & _). apply N1. rewrite <- A. reflexivity. }
  assert (X1 : le 4 0x50324156 = x1). { rewrite <- L1 at 1. apply le_of_val; [exact F1|]. rewrite E1. unfold zlen. rewrite L1. reflexivity. }
  destruct (unbuffer_small 4 x2 x1 (x3 ++ x4 ++ x5 ++ x6) fill F2 L2 ltac:(lia)) as [U2 R2]. fold whole in U2.
  replace (zlen x1) with 4 in U2 by (unfold zlen; lia). rewrite U2. cbn [fst snd].
  destruct (Z.eqb_spec (le_val x2) VERSION) as [E2|N2]; cbn [negb].
  2: { eexists _, _. split; [reflexivity|]. split; [reflexivity|]. split; [reflexivity|]. intros s V E.
       destruct (M s V E) as (_ & A & _). apply N2. rewrite <- A. reflexivity. }
  assert (X2 : le 4 1 = x2). { rewrite <- L2 at 1. apply le_of_val; [exact F2|]. rewrite E2. unfold zlen. rewrite L2. reflexivity. }
  destruct (unbuffer_small 4 x3 (x1 ++ x2) (x4 ++ x5 ++ x6) fill F3 L3 ltac:(lia)) as [U3 R3].
  rewrite <- app_assoc in U3. fold whole in U3.
  replace (zlen (x1 ++ x2)) with (4 + Z.of_nat 4) in U3 by (rewrite zlen_app; unfold zlen; lia). rewrite U3. cbn [fst snd]. cbv zeta.
  destruct (sw32_le x3 L3 F3) as [Rn X3]. set (ntus := sw 32 (le_val x3)) in *. clearbody ntus.
  assert (NT : forall s, valid_summary s -> summary_bytes s = whole -> s_ntus s = ntus).
  { intros s V E. destruct (M s V E) as (_ & _ & A & _). rewrite <- X3 in A. apply (f_equal (fun l => sw 32 (le_val l))) in A.
    pose proof (vs_ntus s V). pose proof (vs_total s V). rewrite !sw_le_back in A by lia. exact A. }
  destruct (Z.ltb_spec ntus 1) as [Bn|Gn].
  { eexists _, _. split; [reflexivity|]. split; [reflexivity|]. split; [reflexivity|]. intros s V E.
    pose proof (NT s V E). pose proof (vs_ntus s V). lia. }
  destruct (parse_counts_ok 5 x4 (x1 ++ x2 ++ x3) (x5 ++ x6) fill 0 F4 ltac:(lia) ltac:(lia)) as (d4 & r4' & U4 & Fd4 & Bd4 & Rd4).
  assert (W4 : (x1 ++ x2 ++ x3) ++ x4 ++ x5 ++ x6 = whole) by (unfold whole; rewrite <- !app_assoc; reflexivity).
  rewrite W4 in U4, Bd4. replace (zlen (x1 ++ x2 ++ x3)) with (4 + Z.of_nat 4 + Z.of_nat 4) in * by (rewrite !zlen_app; unfold zlen; lia).
  rewrite U4. cbn [fst snd]. destruct r4' as [u|[nf total]].
  { eexists _, _. split; [reflexivity|]. split; [exact Fd4|]. split; [exact Bd4|]. intros s V E.
    destruct (M s V E) as (_ & _ & _ & A & _). destruct (vs_nframes s V) as [V1 V2]. destruct (vs_total s V) as [V3 V4].
    apply (Rd4 (s_nframes s)); try assumption. lia. }
  destruct Rd4 as (P4 & X4 & Ln4 & Fn4 & T4 & T4'). rewrite Z.add_0_l in T4.
  assert (NF : forall s, valid_summary s -> summary_bytes s = whole -> s_nframes s = nf).
  { intros s V E. destruct (M s V E) as (_ & _ & _ & A & _). destruct (vs_nframes s V) as [V1 V2]. destruct (vs_total s V) as [V3 V4].
    rewrite <- X4 in A. apply flat_le4_inj; auto; lia. }
  destruct (Z.ltb_spec total ntus) as [Bt|Gt].
  { eexists _, _. split; [reflexivity|]. split; [exact Fd4|]. split; [exact Bd4|]. intros s V E.
    pose proof (NT s V E). pose proof (NF s V E) as N. pose proof (vs_ntus s V). destruct (vs_total s V) as [V3 _]. rewrite N in V3. lia. }
  destruct d4 as [p4 f4 b4]. cbn [d_fill d_buf d_pos] in *. subst f4 b4 p4.
  destruct (parse_exps_ok 4 x5 (x1 ++ x2 ++ x3 ++ x4) x6 fill F5 L5) as [U5 X5].
  assert (W5 : (x1 ++ x2 ++ x3 ++ x4) ++ x5 ++ x6 = whole) by (unfold whole; rewrite <- !app_assoc; reflexivity).
  rewrite W5 in U5. replace (zlen (x1 ++ x2 ++ x3 ++ x4)) with (4 + Z.of_nat 4 + Z.of_nat 4 + zlen x4) in U5 by (rewrite !zlen_app; unfold zlen; lia).
  rewrite U5. cbn [fst snd].
  destruct (parse_sums_ok 4 x6 (x1 ++ x2 ++ x3 ++ x4 ++ x5) [] fill F6 ltac:(lia)) as (d6 & r6 & U6 & Fd6 & Bd6 & Rd6).
  assert (W6 : (x1 ++ x2 ++ x3 ++ x4 ++ x5) ++ x6 ++ [] = whole) by (unfold whole; rewrite app_nil_r, <- !app_assoc; reflexivity).
  rewrite W6 in U6, Bd6.
  replace (zlen (x1 ++ x2 ++ x3 ++ x4 ++ x5)) with (4 + Z.of_nat 4 + Z.of_nat 4 + zlen x4 + zlen x5) in U6 by (rewrite !zlen_app; unfold zlen; lia).
  rewrite U6. cbn [fst snd]. destruct r6 as [u|sums]; (eexists _, _; split; [reflexivity|]; split; [exact Fd6|]; split; [exact Bd6|]).
  - intros s V E. destruct (M s V E) as (_ & _ & _ & _ & _ & A). destruct (vs_sum s V) as [V1 V2]. apply (Rd6 (s_sum s)); assumption.
  - destruct Rd6 as (X6 & Ls & Fs). split.
    + constructor; cbn [s_ntus s_total s_nframes s_exp s_sum]; try tauto; try lia; split; auto.
    + unfold summary_bytes. cbn [s_ntus s_total s_nframes s_exp s_sum]. rewrite X1, X2, X3, X4, X5, X6. reflexivity.
Qed.

Lemma summary_length s : valid_summary s -> length (summary_bytes s) = 68%nat.
Proof.
  intros V. unfold summary_bytes. rewrite !app_length, !le_length, !flat_le_len.
  destruct (vs_nframes s V), (vs_exp s V), (vs_sum s V). lia.
Qed.
Lemma flat_le_bytes n l : Forall byte (flat_map (le n) l).
Proof. induction l as [|x l IH]; cbn [flat_map]; [constructor|]. apply Forall_app. split; [apply le_bytes|exact IH]. Qed.
Lemma summary_is_bytes s : Forall byte (summary_bytes s).
Proof. unfold summary_bytes. repeat (apply Forall_app; split); try apply le_bytes; apply flat_le_bytes. Qed.
