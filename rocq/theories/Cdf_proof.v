(** Undoing two logs of overlapping windows restores the tables. *)
From Verif Require Import Base Cdf_model Cdf_spec.
Local Open Scope Z_scope.

(** ** Words of memory *)
Definition at_ (m : mem) (i : Z) : option Z :=
  if i <? 0 then None else nth_error m (Z.to_nat i).

Lemma nth_error_ext' (A : Type) (l1 l2 : list A) :
  (forall n, nth_error l1 n = nth_error l2 n) -> l1 = l2.
Proof.
  revert l2; induction l1 as [|x l1 IH]; intros [|y l2] H; auto.
  - specialize (H O); discriminate.
  - specialize (H O); discriminate.
  - f_equal.
    + specialize (H O); cbn in H; congruence.
    + apply IH; intros n; exact (H (S n)).
Qed.

Lemma at_ext m1 m2 : (forall i, at_ m1 i = at_ m2 i) -> m1 = m2.
Proof.
  intros H; apply nth_error_ext'; intros n.
  specialize (H (Z.of_nat n)); unfold at_ in H.
  destruct (Z.ltb_spec (Z.of_nat n) 0); [lia|].
  now rewrite Nat2Z.id in H.
Qed.

Definition inw (o n i : Z) : Prop := o <= i < o + n.

Lemma nth_error_firstn' (A : Type) (l : list A) n i :
  (i < n)%nat -> nth_error (firstn n l) i = nth_error l i.
Proof.
  revert l i; induction n; intros l i H; [lia|].
  destruct l, i; cbn; auto. apply IHn; lia.
Qed.

Lemma nth_error_skipn' (A : Type) (l : list A) n i :
  nth_error (skipn n l) i = nth_error l (n + i).
Proof.
  revert l; induction n; intros l; [reflexivity|].
  destruct l; cbn; [now destruct i|]. apply IHn.
Qed.

Lemma wr_some m o v : 0 <= o -> o + zlen v <= zlen m -> exists m', wr m o v = Some m'.
Proof.
  intros H1 H2; unfold wr.
  destruct (Z.leb_spec 0 o); [|lia]. destruct (Z.leb_spec (o + zlen v) (zlen m)); [|lia].
  cbn [andb]; eauto.
Qed.

Lemma wr_spec m o v m' :
  wr m o v = Some m' ->
  0 <= o /\ o + zlen v <= zlen m /\ zlen m' = zlen m /\
  (forall i, inw o (zlen v) i -> at_ m' i = nth_error v (Z.to_nat (i - o))) /\
  (forall i, ~ inw o (zlen v) i -> at_ m' i = at_ m i).
Proof.
  unfold wr. destruct (Z.leb_spec 0 o); [|discriminate].
  destruct (Z.leb_spec (o + zlen v) (zlen m)); [|discriminate].
  cbn [andb]. intros E; injection E as <-.
  unfold zlen, inw, at_ in *.
  split; [assumption|]. split; [assumption|]. split.
  { rewrite !app_length, firstn_length, skipn_length. lia. }
  split; intros i Hi.
  - destruct (Z.ltb_spec i 0); [lia|].
    rewrite nth_error_app2 by (rewrite firstn_length; lia).
    rewrite firstn_length. rewrite nth_error_app1 by lia.
    f_equal; lia.
  - destruct (Z.ltb_spec i 0); [reflexivity|].
    destruct (Z.ltb_spec i o).
    + rewrite nth_error_app1 by (rewrite firstn_length; lia).
      apply nth_error_firstn'; lia.
    + rewrite nth_error_app2 by (rewrite firstn_length; lia).
      rewrite firstn_length. rewrite nth_error_app2 by lia.
      rewrite nth_error_skipn'. f_equal; lia.
Qed.

Lemma rd_spec m o n :
  0 <= o -> 0 <= n -> o + n <= zlen m ->
  exists v, rd m o n = Some v /\ zlen v = n /\
    forall i, inw o n i -> nth_error v (Z.to_nat (i - o)) = at_ m i.
Proof.
  intros Ho Hn Hb; unfold rd.
  destruct (Z.leb_spec 0 o); [|lia].
  destruct (Z.leb_spec (o + n) (zlen m)); [|lia].
  cbn [andb]. eexists; split; [reflexivity|].
  unfold zlen, inw, at_ in *. split.
  - rewrite firstn_length, skipn_length; lia.
  - intros i Hi. destruct (Z.ltb_spec i 0); [lia|].
    rewrite nth_error_firstn' by lia. rewrite nth_error_skipn'. f_equal; lia.
Qed.

(** The specification's [put] is a plain write. *)
Lemma put_len m t v : zlen (put m t v) = zlen m.
Proof.
  unfold put, zlen. rewrite map_length, combine_length, seq_length. lia.
Qed.

Lemma nth_error_combine_seq (m : list Z) n a :
  nth_error (combine (seq a (length m)) m) n =
  match nth_error m n with Some w => Some ((a + n)%nat, w) | None => None end.
Proof.
  revert n a; induction m as [|w m IH]; intros n a.
  - destruct n; reflexivity.
  - destruct n as [|n]; cbn [length seq combine nth_error].
    + now rewrite Nat.add_0_r.
    + rewrite IH. destruct (nth_error m n); [|reflexivity].
      f_equal; f_equal; lia.
Qed.

Lemma put_wr m t v :
  0 <= t_off t -> t_off t + zlen v <= zlen m -> wr m (t_off t) v = Some (put m t v).
Proof.
  intros H1 H2. destruct (wr_some m (t_off t) v H1 H2) as [m' E]. rewrite E. f_equal.
  destruct (wr_spec _ _ _ _ E) as (_ & _ & HL & Hin & Hout).
  apply at_ext; intros i.
  assert (P : at_ (put m t v) i =
    match at_ m i with
    | Some w => Some (if (0 <=? i - t_off t) && (i - t_off t <? zlen v)
                      then nth (Z.to_nat (i - t_off t)) v 0 else w)
    | None => None end).
  { unfold at_, put. destruct (Z.ltb_spec i 0); [reflexivity|].
    rewrite nth_error_map, nth_error_combine_seq.
    destruct (nth_error m (Z.to_nat i)); [|reflexivity].
    cbn [option_map]. f_equal.
    replace (Z.of_nat (0 + Z.to_nat i)) with i by lia. reflexivity. }
  rewrite P.
  destruct (Z.leb_spec 0 (i - t_off t)); [destruct (Z.ltb_spec (i - t_off t) (zlen v))|].
  - rewrite Hin by (unfold inw; lia). cbn [andb].
    assert (B : exists w, at_ m i = Some w).
    { unfold at_. destruct (Z.ltb_spec i 0); [lia|].
      destruct (nth_error m (Z.to_nat i)) eqn:En; eauto.
      apply nth_error_None in En. unfold zlen in *; lia. }
    destruct B as [w ->]. unfold zlen in *.
    apply nth_error_nth'. lia.
  - rewrite Hout by (unfold inw; lia). cbn [andb]. now destruct (at_ m i).
  - rewrite Hout by (unfold inw; lia). cbn [andb]. now destruct (at_ m i).
Qed.

(** ** Layouts for which the log is sound *)
Definition smallt (t : table) : Prop := t_len t <= 4.

Record layout_ok (ts : list table) (N : Z) : Prop := {
  lo_off : forall t, In t ts -> 0 <= t_off t <= 32767;
  lo_len : forall t, In t ts -> 0 < t_len t <= 16;
  lo_sin : forall t, In t ts -> smallt t -> t_off t + 4 <= N;
  lo_lin : forall t, In t ts -> ~ smallt t -> t_off t + 16 <= N;
  lo_sl : forall s t, In s ts -> In t ts -> smallt s -> ~ smallt t ->
    t_off s + 4 <= t_off t \/ t_off t + t_len t <= t_off s;
  lo_ls : forall s t, In s ts -> In t ts -> smallt s -> ~ smallt t ->
    t_off t + 16 <= t_off s \/ t_off s + t_len s <= t_off t }.

(** A linear check: the first offsets of small and of other tables in the
    rest of the structure bound the windows. *)
Fixpoint chk (N : Z) (ts : list table) : bool * Z * Z :=
  match ts with
  | [] => (true, N, N)
  | t :: r =>
      let '(ok, fs, fl) := chk N r in
      let o := t_off t in
      let base := ok && (0 <=? o) && (o <=? 32767) && (0 <? t_len t)
                  && (t_len t <=? 16)
                  && (o + t_len t <=? fs) && (o + t_len t <=? fl) in
      if t_len t <=? 4 then (base && (o + 4 <=? fl) && (o + 4 <=? N), o, fl)
      else (base && (o + 16 <=? fs) && (o + 16 <=? N), fs, o)
  end.

Lemma chk_sound N ts fs fl :
  chk N ts = (true, fs, fl) ->
  layout_ok ts N /\
  (forall t, In t ts -> smallt t -> fs <= t_off t) /\
  (forall t, In t ts -> ~ smallt t -> fl <= t_off t) .
Proof.
  revert fs fl; induction ts as [|t r IH]; intros fs fl E.
  - split; [|split]; [constructor| |]; intros; contradiction.
  - cbn [chk] in E. destruct (chk N r) as [[ok fs'] fl'] eqn:Er.
    assert (ok = true) as ->.
    { destruct ok; [reflexivity|]. destruct (t_len t <=? 4); cbn [andb] in E; discriminate. }
    destruct (IH fs' fl' eq_refl) as (L & Hs & Hl). clear IH.
    destruct L as [L1 L2 L3 L4 L5 L6].
    destruct (Z.leb_spec (t_len t) 4) as [S4|S4].
    + injection E as E E2 E3; subst fs fl.
      rewrite !andb_true_iff, !Z.leb_le, ?Z.ltb_lt in E.
      destruct E as [[[[[[[e1 e2] e3] e4] e5] e6] e7] e8].
      split; [|split].
      * constructor.
        -- intros u [<-|I]; [lia|now apply L1].
        -- intros u [<-|I]; [lia|now apply L2].
        -- intros u [<-|I] Hu; [lia|now apply L3].
        -- intros u [<-|I] Hu; [exfalso; apply Hu; exact S4|now apply L4].
        -- intros u v [<-|I] [<-|J] Hu Hv.
           ++ exfalso; auto.
           ++ specialize (Hl v J Hv). lia.
           ++ exfalso; apply Hv; exact S4.
           ++ now apply L5.
        -- intros u v [<-|I] [<-|J] Hu Hv.
           ++ exfalso; auto.
           ++ specialize (Hl v J Hv). lia.
           ++ exfalso; apply Hv; exact S4.
           ++ now apply L6.
      * intros u [<-|I] Hu; [lia|]. specialize (Hs u I Hu); lia.
      * intros u [<-|I] Hu; [exfalso; apply Hu; exact S4|now apply Hl].
    + injection E as E E2 E3; subst fs fl.
      rewrite !andb_true_iff, !Z.leb_le, ?Z.ltb_lt in E.
      destruct E as [[[[[[[e1 e2] e3] e4] e5] e6] e7] e8].
      assert (NS : ~ smallt t) by (unfold smallt; lia).
      split; [|split].
      * constructor.
        -- intros u [<-|I]; [lia|now apply L1].
        -- intros u [<-|I]; [lia|now apply L2].
        -- intros u [<-|I] Hu; [contradiction|now apply L3].
        -- intros u [<-|I] Hu; [lia|now apply L4].
        -- intros u v [<-|I] [<-|J] Hu Hv.
           ++ exfalso; auto.
           ++ contradiction.
           ++ specialize (Hs u I Hu). lia.
           ++ now apply L5.
        -- intros u v [<-|I] [<-|J] Hu Hv.
           ++ exfalso; auto.
           ++ contradiction.
           ++ specialize (Hs u I Hu). lia.
           ++ now apply L6.
      * intros u [<-|I] Hu; [contradiction|now apply Hs].
      * intros u [<-|I] Hu; [lia|]. specialize (Hl u I Hu); lia.
Qed.

Lemma cdf_layout_ok : layout_ok cdf_tables cdf_words.
Proof.
  assert (E : exists fs fl, chk cdf_words cdf_tables = (true, fs, fl)).
  { assert (B : fst (fst (chk cdf_words cdf_tables)) = true) by (vm_compute; reflexivity).
    destruct (chk cdf_words cdf_tables) as [[ok fs] fl]. cbn in B. subst. eauto. }
  destruct E as (fs & fl & E). exact (proj1 (chk_sound _ _ _ _ E)).
Qed.

(** ** Undoing one log *)
Section Undo.
Variable N : Z.

(** An entry of a log with windows of [w] words over memory of [N] words. *)
Definition entry_ok (w : Z) (e : entry) : Prop :=
  zlen (e_words e) = w /\ 0 <= e_off e / 2 /\ e_off e / 2 + w <= N.

Definition covers (w : Z) (e : entry) (i : Z) : Prop := inw (e_off e / 2) w i.

(** Word [i] after undoing the rows [d] (newest first). *)
Fixpoint undo_at (w : Z) (d : list entry) (i : Z) (x : option Z) : option Z :=
  match d with
  | [] => x
  | e :: r =>
      undo_at w r i
        (if (e_off e / 2 <=? i) && (i <? e_off e / 2 + w)
         then nth_error (e_words e) (Z.to_nat (i - e_off e / 2)) else x)
  end.

Lemma undo_spec w d n m :
  n = length d ->
  Forall (entry_ok w) d -> zlen m = N ->
  forall r, exists m', undo n (d ++ r) m = Some (r, m') /\ zlen m' = N /\
    forall i, at_ m' i = undo_at w d i (at_ m i).
Proof.
  intros -> F. revert m; induction F as [|e d (Hw & H0 & HN) F IH]; intros m Hm r.
  - exists m. cbn. auto.
  - cbn [length app undo].
    destruct (wr_some m (e_off e / 2) (e_words e)) as [m1 E]; [lia|lia|].
    rewrite E. destruct (wr_spec _ _ _ _ E) as (_ & _ & HL & Hin & Hout).
    destruct (IH m1 ltac:(lia) r) as (m' & E' & HL' & Hat).
    exists m'. split; [exact E'|]. split; [exact HL'|].
    intros i. rewrite Hat. cbn [undo_at]. f_equal.
    destruct (Z.leb_spec (e_off e / 2) i); [destruct (Z.ltb_spec i (e_off e / 2 + w))|];
      cbn [andb]; [apply Hin|apply Hout|apply Hout]; unfold inw; lia.
Qed.

(** Either no row covers the word, or the result does not depend on its
    present value. *)
Lemma undo_at_cases w d i :
  (Forall (fun e => ~ covers w e i) d /\ forall x, undo_at w d i x = x) \/
  (Exists (fun e => covers w e i) d /\ forall x y, undo_at w d i x = undo_at w d i y).
Proof.
  induction d as [|e d IH]; [left; split; [constructor|reflexivity]|].
  cbn [undo_at].
  destruct (Z.leb_spec (e_off e / 2) i); [destruct (Z.ltb_spec i (e_off e / 2 + w))|].
  - right. split; [apply Exists_cons_hd; unfold covers, inw; lia|]. cbn [andb]. reflexivity.
  - cbn [andb]. destruct IH as [[F H1]|[X H1]]; [left|right]; split; auto.
    constructor; [unfold covers, inw; lia|assumption].
  - cbn [andb]. destruct IH as [[F H1]|[X H1]]; [left|right]; split; auto.
    constructor; [unfold covers, inw; lia|assumption].
Qed.
End Undo.

(** ** The two logs together *)
Section Logs.
Variable ts : list table.
Variable N : Z.
Hypothesis LO : layout_ok ts N.

Definition inS (i : Z) : Prop := exists t, In t ts /\ smallt t /\ inw (t_off t) (t_len t) i.
Definition inL (i : Z) : Prop := exists t, In t ts /\ ~ smallt t /\ inw (t_off t) (t_len t) i.

(** Rows made for tables of the structure. *)
Definition small_entry (e : entry) : Prop :=
  exists t, In t ts /\ smallt t /\ e_off e = 2 * t_off t /\ zlen (e_words e) = 4.
Definition large_entry (e : entry) : Prop :=
  exists t, In t ts /\ ~ smallt t /\ e_off e = 2 * t_off t /\ zlen (e_words e) = 16.

Lemma half2 o : 2 * o / 2 = o.
Proof. rewrite Z.mul_comm. apply Z.div_mul. lia. Qed.

Lemma small_entry_ok e : small_entry e -> entry_ok N 4 e.
Proof.
  intros (t & I & St & Ho & Hl). unfold entry_ok. rewrite Ho, half2.
  pose proof (lo_off _ _ LO t I). pose proof (lo_sin _ _ LO t I St). lia.
Qed.
Lemma large_entry_ok e : large_entry e -> entry_ok N 16 e.
Proof.
  intros (t & I & St & Ho & Hl). unfold entry_ok. rewrite Ho, half2.
  pose proof (lo_off _ _ LO t I). pose proof (lo_lin _ _ LO t I St). lia.
Qed.

Lemma small_not_L e i : small_entry e -> inL i -> ~ covers 4 e i.
Proof.
  intros (t & I & St & Ho & Hl) (u & Iu & Su & Hu) C.
  unfold covers in C. rewrite Ho, half2 in C. unfold inw in *.
  pose proof (lo_sl _ _ LO t u I Iu St Su). lia.
Qed.
Lemma large_not_S e i : large_entry e -> inS i -> ~ covers 16 e i.
Proof.
  intros (t & I & St & Ho & Hl) (u & Iu & Su & Hu) C.
  unfold covers in C. rewrite Ho, half2 in C. unfold inw in *.
  pose proof (lo_ls _ _ LO u t Iu I Su St). lia.
Qed.
Lemma S_not_L i : inS i -> ~ inL i.
Proof.
  intros (t & I & St & Hi) (u & Iu & Su & Hu). unfold inw in *.
  pose proof (lo_sl _ _ LO t u I Iu St Su). pose proof (lo_len _ _ LO t I).
  unfold smallt in *. lia.
Qed.

(** Words are small, large or neither, decidably enough. *)
Lemma inS_dec i : inS i \/ ~ inS i.
Proof.
  unfold inS. clear LO. induction ts as [|t r IH].
  - right. intros (t & [] & _).
  - destruct IH as [(u & I & H)|H].
    + left. exists u. split; [now right|exact H].
    + destruct (Z_le_dec (t_len t) 4) as [S4|S4].
      * destruct (Z_le_dec (t_off t) i) as [a|a];
          [destruct (Z_lt_dec i (t_off t + t_len t)) as [b|b]|].
        -- left. exists t. split; [now left|]. split; [exact S4|]. split; assumption.
        -- right. intros (u & [<-|I] & Su & Hu); [unfold inw in Hu; lia|]. apply H; eauto.
        -- right. intros (u & [<-|I] & Su & Hu); [unfold inw in Hu; lia|]. apply H; eauto.
      * right. intros (u & [<-|I] & Su & Hu); [unfold smallt in Su; lia|]. apply H; eauto.
Qed.

Lemma inL_dec i : inL i \/ ~ inL i.
Proof.
  unfold inL. clear LO. induction ts as [|t r IH].
  - right. intros (t & [] & _).
  - destruct IH as [(u & I & H)|H].
    + left. exists u. split; [now right|exact H].
    + destruct (Z_le_dec (t_len t) 4) as [S4|S4].
      * right. intros (u & [<-|I] & Su & Hu); [contradiction|]. apply H; eauto.
      * destruct (Z_le_dec (t_off t) i) as [a|a];
          [destruct (Z_lt_dec i (t_off t + t_len t)) as [b|b]|].
        -- left. exists t. split; [now left|]. split; [unfold smallt; lia|]. split; assumption.
        -- right. intros (u & [<-|I] & Su & Hu); [unfold inw in Hu; lia|]. apply H; eauto.
        -- right. intros (u & [<-|I] & Su & Hu); [unfold inw in Hu; lia|]. apply H; eauto.
Qed.

(** [m0] is the memory before the rows [ds] and [dl] were added, [m] the
    memory now. *)
Definition since (m0 : mem) (ds dl : list entry) (m : mem) : Prop :=
  zlen m0 = N /\ zlen m = N /\
  (forall i, ~ inL i -> undo_at 4 ds i (at_ m i) = at_ m0 i) /\
  (forall i, ~ inS i -> undo_at 16 dl i (at_ m i) = at_ m0 i).

Lemma since_refl m : zlen m = N -> since m [] [] m.
Proof. intros H. repeat split; auto. Qed.

Lemma since_undo m0 ds dl m rs rl :
  Forall small_entry ds -> Forall large_entry dl -> since m0 ds dl m ->
  exists m1, undo (length ds) (ds ++ rs) m = Some (rs, m1) /\
             undo (length dl) (dl ++ rl) m1 = Some (rl, m0).
Proof.
  intros Fs Fl (H0 & Hm & Hs & Hl).
  assert (Fs' : Forall (entry_ok N 4) ds)
    by (revert Fs; apply Forall_impl; apply small_entry_ok).
  assert (Fl' : Forall (entry_ok N 16) dl)
    by (revert Fl; apply Forall_impl; apply large_entry_ok).
  destruct (undo_spec N 4 ds _ m eq_refl Fs' Hm rs) as (m1 & E1 & L1 & A1).
  destruct (undo_spec N 16 dl _ m1 eq_refl Fl' L1 rl) as (m2 & E2 & L2 & A2).
  exists m1. split; [exact E1|]. rewrite E2. do 2 f_equal.
  apply at_ext; intros i. rewrite A2, A1.
  destruct (inL_dec i) as [IL|NL].
  - (* a word of a large table: the small rows leave it alone *)
    assert (NS : ~ inS i) by (intros X; exact (S_not_L i X IL)).
    destruct (undo_at_cases 4 ds i) as [[_ U]|[X _]].
    + rewrite U. now apply Hl.
    + exfalso. apply Exists_exists in X. destruct X as (e & Ie & C).
      rewrite Forall_forall in Fs. exact (small_not_L e i (Fs e Ie) IL C).
  - rewrite (Hs i NL).
    destruct (undo_at_cases 16 dl i) as [[_ U]|[X U]]; [now rewrite U|].
    assert (NS : ~ inS i).
    { intros IS. apply Exists_exists in X. destruct X as (e & Ie & C).
      rewrite Forall_forall in Fl. exact (large_not_S e i (Fl e Ie) IS C). }
    rewrite (U _ (at_ m i)). now apply Hl.
Qed.

(** Undoing the row just made for a window that contains the table gives the
    memory before. *)
Lemma since_small m0 ds dl m t saved vals m' :
  In t ts -> smallt t -> zlen vals = t_len t ->
  since m0 ds dl m ->
  rd m (t_off t) 4 = Some saved -> wr m (t_off t) vals = Some m' ->
  since m0 (mkEntry saved (2 * t_off t) :: ds) dl m'.
Proof.
  intros I St Hv (H0 & Hm & Hs & Hl) Er Ew.
  destruct (wr_spec _ _ _ _ Ew) as (_ & _ & HL & Hin & Hout).
  pose proof (lo_off _ _ LO t I) as Ho. pose proof (lo_sin _ _ LO t I St) as Hi4.
  destruct (rd_spec m (t_off t) 4) as (v & Ev & Lv & Av); [lia|lia|lia|].
  rewrite Er in Ev; injection Ev as <-.
  split; [exact H0|]. split; [lia|]. split.
  - intros i NL. cbn [undo_at e_off e_words]. rewrite half2. rewrite <- (Hs i NL). f_equal.
    destruct (Z.leb_spec (t_off t) i); [destruct (Z.ltb_spec i (t_off t + 4))|]; cbn [andb].
    + apply Av; unfold inw; lia.
    + apply Hout. unfold inw, smallt in *; lia.
    + apply Hout. unfold inw; lia.
  - intros i NS. rewrite <- (Hl i NS). f_equal. apply Hout. intros C. apply NS.
    exists t. rewrite Hv in C. auto.
Qed.

Lemma since_large m0 ds dl m t saved vals m' :
  In t ts -> ~ smallt t -> zlen vals = t_len t ->
  since m0 ds dl m ->
  rd m (t_off t) 16 = Some saved -> wr m (t_off t) vals = Some m' ->
  since m0 ds (mkEntry saved (2 * t_off t) :: dl) m'.
Proof.
  intros I St Hv (H0 & Hm & Hs & Hl) Er Ew.
  destruct (wr_spec _ _ _ _ Ew) as (_ & _ & HL & Hin & Hout).
  pose proof (lo_off _ _ LO t I) as Ho. pose proof (lo_lin _ _ LO t I St) as Hi4.
  pose proof (lo_len _ _ LO t I) as Hlen.
  destruct (rd_spec m (t_off t) 16) as (v & Ev & Lv & Av); [lia|lia|lia|].
  rewrite Er in Ev; injection Ev as <-.
  split; [exact H0|]. split; [lia|]. split.
  - intros i NL. rewrite <- (Hs i NL). f_equal. apply Hout. intros C. apply NL.
    exists t. rewrite Hv in C. auto.
  - intros i NS. cbn [undo_at e_off e_words]. rewrite half2. rewrite <- (Hl i NS). f_equal.
    destruct (Z.leb_spec (t_off t) i); [destruct (Z.ltb_spec i (t_off t + 16))|]; cbn [andb].
    + apply Av; unfold inw; lia.
    + apply Hout. unfold inw in *; lia.
    + apply Hout. unfold inw; lia.
Qed.

(** ** The simulation *)
Variable grow : Z -> Z -> Z -> Z.
Hypothesis GR : reserves grow.

(** One checkpoint and the copy it stands for. *)
Definition cp_ok (DS DL : list entry) (m : mem) (cp : Z * Z) (copy : list Z) : Prop :=
  exists ds dl rs rl, DS = ds ++ rs /\ DL = dl ++ rl /\
    zlen rs = fst cp /\ zlen rl = snd cp /\ since copy ds dl m.

(** Later checkpoints have longer logs. *)
Fixpoint chain (cps : list (Z * Z)) (ns nl : Z) : Prop :=
  match cps with
  | [] => True
  | c :: r => (forall d, In d r -> fst c <= fst d /\ snd c <= snd d) /\
              fst c <= ns /\ snd c <= nl /\ chain r ns nl
  end.

Record sim (s : cstate) (p : sstate) : Prop := {
  sm_mem : c_mem s = s_mem p;
  sm_len : zlen (c_mem s) = N;
  sm_small : Forall small_entry (p_data (l_small (c_log s)));
  sm_large : Forall large_entry (p_data (l_large (c_log s)));
  sm_caps : zlen (p_data (l_small (c_log s))) < p_cap (l_small (c_log s));
  sm_capl : zlen (p_data (l_large (c_log s))) < p_cap (l_large (c_log s));
  sm_cps : Forall2 (cp_ok (p_data (l_small (c_log s))) (p_data (l_large (c_log s)))
                          (c_mem s)) (c_cps s) (s_copies p);
  sm_chain : chain (c_cps s) (zlen (p_data (l_small (c_log s))))
                             (zlen (p_data (l_large (c_log s)))) }.

Lemma chain_mono cps a b a' b' : a <= a' -> b <= b' -> chain cps a b -> chain cps a' b'.
Proof.
  intros Ha Hb; induction cps as [|c r IH]; [auto|].
  cbn [chain]. intros (H1 & H2 & H3 & H4). split; [exact H1|]. split; [lia|]. split; [lia|auto].
Qed.

Lemma chain_snoc cps a b : chain cps a b -> chain (cps ++ [(a, b)]) a b.
Proof.
  induction cps as [|c r IH]; cbn [chain app].
  - intros _. split; [intros d []|]. cbn [fst snd]. split; [lia|]. split; [lia|exact Logic.I].
  - intros (H1 & H2 & H3 & H4). split; [|auto].
    intros d Hd. apply in_app_or in Hd. destruct Hd as [Hd|[<-|[]]]; [auto|].
    cbn [fst snd]; lia.
Qed.

(** Going back to the [i]-th checkpoint keeps the chain of those before. *)
Lemma chain_firstn cps i c a b :
  chain cps a b -> nth_error cps i = Some c ->
  chain (firstn (S i) cps) (fst c) (snd c).
Proof.
  revert i; induction cps as [|d r IH]; intros i H E; [destruct i; discriminate|].
  cbn [chain] in H. destruct H as (H1 & H2 & H3 & H4).
  destruct i as [|i].
  - cbn in E. injection E as ->. cbn [firstn chain]. split; [intros ? []|].
    split; [lia|]. split; [lia|exact Logic.I].
  - cbn [nth_error] in E. change (firstn (S (S i)) (d :: r)) with (d :: firstn (S i) r).
    cbn [chain]. pose proof (H1 c (nth_error_In _ _ E)) as [H5 H6].
    split; [|split; [lia|split; [lia|eauto]]].
    intros e He. apply H1. rewrite <- (firstn_skipn (S i) r). apply in_or_app. now left.
Qed.

Lemma chain_le cps i a b c d j :
  chain cps a b -> nth_error cps i = Some c -> nth_error cps j = Some d -> (i <= j)%nat ->
  fst c <= fst d /\ snd c <= snd d.
Proof.
  revert i j; induction cps as [|e r IH]; intros i j H Ei Ej L; [destruct i; discriminate|].
  cbn [chain] in H. destruct H as (H1 & H2 & H3 & H4).
  destruct i as [|i].
  - cbn in Ei. injection Ei as ->. destruct j as [|j].
    + cbn in Ej. injection Ej as ->. lia.
    + cbn in Ej. apply H1. eapply nth_error_In; eauto.
  - destruct j as [|j]; [lia|]. cbn in Ei, Ej. eapply IH; eauto. lia.
Qed.

Lemma Forall2_nth (A B : Type) (R : A -> B -> Prop) l1 l2 i a :
  Forall2 R l1 l2 -> nth_error l1 i = Some a ->
  exists b, nth_error l2 i = Some b /\ R a b.
Proof.
  intros F; revert i; induction F as [|x y l1 l2 Hxy F IH]; intros i E; [destruct i; discriminate|].
  destruct i; cbn in *; [injection E as ->; eauto|eauto].
Qed.

Lemma Forall2_len (A B : Type) (R : A -> B -> Prop) l1 l2 :
  Forall2 R l1 l2 -> length l1 = length l2.
Proof. induction 1; cbn; auto. Qed.

Lemma Forall2_firstn (A B : Type) (R : A -> B -> Prop) n l1 l2 :
  Forall2 R l1 l2 -> Forall2 R (firstn n l1) (firstn n l2).
Proof.
  intros F; revert n; induction F; intros [|n]; cbn; constructor; auto.
Qed.

Lemma Forall2_impl_nth (A B : Type) (R Q : A -> B -> Prop) l1 l2 :
  Forall2 R l1 l2 ->
  (forall i a b, nth_error l1 i = Some a -> nth_error l2 i = Some b -> R a b -> Q a b) ->
  Forall2 Q l1 l2.
Proof.
  intros F; induction F as [|x y l1 l2 Hxy F IH]; intros H; constructor.
  - apply (H O); auto.
  - apply IH. intros i a b Ha Hb. apply (H (S i)); auto.
Qed.

(** Splitting the same list at two lengths. *)
Lemma app_split (A : Type) (d1 r1 d2 r2 : list A) :
  d1 ++ r1 = d2 ++ r2 -> zlen r1 <= zlen r2 ->
  exists x, d1 = d2 ++ x /\ r2 = x ++ r1.
Proof.
  revert d2; induction d1 as [|a d1 IH]; intros d2 E L.
  - cbn in E. subst r1. rewrite zlen_app in L.
    destruct d2; [exists []; auto|]. rewrite zlen_cons in L. pose proof (zlen_nonneg _ d2). lia.
  - destruct d2 as [|b d2].
    + cbn in E. exists (a :: d1). cbn. auto.
    + cbn in E. injection E as -> E. destruct (IH d2 E L) as (x & -> & ->). exists x. auto.
Qed.

Lemma undo_at_app w d1 d2 i x : undo_at w (d1 ++ d2) i x = undo_at w d2 i (undo_at w d1 i x).
Proof. revert x; induction d1 as [|e d1 IH]; intros x; [reflexivity|]. cbn [app undo_at]. apply IH. Qed.

Lemma since_between c0 c1 d1 x l1 y m :
  since c1 d1 l1 m -> since c0 (d1 ++ x) (l1 ++ y) m -> since c0 x y c1.
Proof.
  intros (A0 & A1 & A2 & A3) (B0 & B1 & B2 & B3).
  split; [exact B0|]. split; [exact A0|]. split.
  - intros i NL. rewrite <- (B2 i NL), undo_at_app, (A2 i NL). reflexivity.
  - intros i NS. rewrite <- (B3 i NS), undo_at_app, (A3 i NS). reflexivity.
Qed.

Lemma u16_2off t : In t ts -> u16 (2 * t_off t) = 2 * t_off t.
Proof. intros I. pose proof (lo_off _ _ LO t I). apply u16_id. lia. Qed.

Lemma u64_le x : 0 <= x -> u64 x <= x.
Proof. intros H. unfold u64. apply Z.mod_le; lia. Qed.

Lemma cap_after w cap n : 0 <= w -> n <= cap ->
  n < (if w + 1 >? u64 (cap - n) then grow cap n (w + 1) else cap).
Proof.
  intros Hw Hn. destruct (Z.gtb_spec (w + 1) (u64 (cap - n))).
  - pose proof (GR cap n (w + 1)). lia.
  - pose proof (u64_le (cap - n)). lia.
Qed.

Lemma sim_adapt s p k vals p' :
  sim s p -> sstep ts p (Adapt k vals) = Some p' ->
  exists s', cstep grow ts s (Adapt k vals) = Some s' /\ sim s' p'.
Proof.
  intros [M L S1 L1 C1 C2 CP CH]. cbn [sstep cstep].
  destruct (nth_error ts k) as [t|] eqn:Et; [|discriminate].
  destruct (Z.eqb_spec (zlen vals) (t_len t)) as [Hv|]; [|discriminate].
  intros E; injection E as <-. cbn [negb].
  pose proof (nth_error_In _ _ Et) as I.
  pose proof (lo_off _ _ LO t I) as Ho. pose proof (lo_len _ _ LO t I) as Hl.
  unfold log_push. destruct (Z.leb_spec (zlen vals) 4) as [S4|S4].
  - assert (St : smallt t) by (unfold smallt; lia).
    pose proof (lo_sin _ _ LO t I St) as Hin.
    unfold part_push. destruct (Z.ltb_spec (zlen vals) (4 + 1)); [|lia].
    destruct (Z.leb_spec (2 * t_off t) 65535); [|lia].
    destruct (Z.leb_spec (zlen (p_data (l_small (c_log s))) + 1) (p_cap (l_small (c_log s))));
      [|lia].
    cbn [negb]. rewrite half2.
    destruct (rd_spec (c_mem s) (t_off t) 4) as (v & Ev & Lv & Av); [lia|lia|lia|].
    rewrite Ev.
    pose proof (put_wr (c_mem s) t vals ltac:(lia) ltac:(lia)) as Ew. rewrite Ew.
    rewrite (u16_2off t I).
    eexists; split; [reflexivity|].
    constructor; cbn [c_mem c_log c_cps l_small l_large p_data p_cap s_mem s_copies].
    + now rewrite M.
    + rewrite put_len; exact L.
    + constructor; [|assumption]. exists t. cbn [e_off e_words]. auto.
    + assumption.
    + rewrite zlen_cons. apply cap_after; lia.
    + assumption.
    + eapply Forall2_impl_nth; [exact CP|].
      intros i a b _ _ (ds & dl & rs & rl & E1 & E2 & E3 & E4 & SI).
      exists (mkEntry v (2 * t_off t) :: ds), dl, rs, rl.
      split; [cbn; now rewrite E1|]. split; [exact E2|]. split; [exact E3|]. split; [exact E4|].
      eapply since_small; eauto.
    + revert CH. apply chain_mono; [rewrite zlen_cons; lia|lia].
  - assert (St : ~ smallt t) by (unfold smallt; lia).
    pose proof (lo_lin _ _ LO t I St) as Hin.
    unfold part_push. destruct (Z.ltb_spec (zlen vals) (16 + 1)); [|lia].
    destruct (Z.leb_spec (2 * t_off t) 65535); [|lia].
    destruct (Z.leb_spec (zlen (p_data (l_large (c_log s))) + 1) (p_cap (l_large (c_log s))));
      [|lia].
    cbn [negb]. rewrite half2.
    destruct (rd_spec (c_mem s) (t_off t) 16) as (v & Ev & Lv & Av); [lia|lia|lia|].
    rewrite Ev.
    pose proof (put_wr (c_mem s) t vals ltac:(lia) ltac:(lia)) as Ew. rewrite Ew.
    rewrite (u16_2off t I).
    eexists; split; [reflexivity|].
    constructor; cbn [c_mem c_log c_cps l_small l_large p_data p_cap s_mem s_copies].
    + now rewrite M.
    + rewrite put_len; exact L.
    + assumption.
    + constructor; [|assumption]. exists t. cbn [e_off e_words]. auto.
    + assumption.
    + rewrite zlen_cons. apply cap_after; lia.
    + eapply Forall2_impl_nth; [exact CP|].
      intros i a b _ _ (ds & dl & rs & rl & E1 & E2 & E3 & E4 & SI).
      exists ds, (mkEntry v (2 * t_off t) :: dl), rs, rl.
      split; [exact E1|]. split; [cbn; now rewrite E2|]. split; [exact E3|]. split; [exact E4|].
      eapply since_large; eauto.
    + revert CH. apply chain_mono; [lia|rewrite zlen_cons; lia].
Qed.

Lemma sim_back s p i p' :
  sim s p -> sstep ts p (Back i) = Some p' ->
  exists s', cstep grow ts s (Back i) = Some s' /\ sim s' p'.
Proof.
  intros [M L S1 L1 C1 C2 CP CH]. cbn [sstep cstep].
  destruct (nth_error (s_copies p) i) as [cm|] eqn:Ei; [|discriminate].
  intros E; injection E as <-.
  destruct (nth_error (c_cps s) i) as [cp|] eqn:Ec.
  2:{ exfalso. apply nth_error_None in Ec. pose proof (Forall2_len _ _ _ _ _ CP) as HL.
      rewrite HL in Ec. apply nth_error_None in Ec. congruence. }
  destruct (Forall2_nth _ _ _ _ _ _ _ CP Ec) as (cm' & Ei' & OK).
  rewrite Ei in Ei'; injection Ei' as <-.
  destruct OK as (ds & dl & rs & rl & E1 & E2 & E3 & E4 & SI).
  assert (Fs : Forall small_entry ds /\ Forall small_entry rs)
    by (rewrite E1 in S1; now apply Forall_app in S1).
  assert (Fl : Forall large_entry dl /\ Forall large_entry rl)
    by (rewrite E2 in L1; now apply Forall_app in L1).
  destruct (since_undo cm ds dl (c_mem s) rs rl (proj1 Fs) (proj1 Fl) SI) as (m1 & U1 & U2).
  unfold log_rollback, part_rollback.
  replace (Z.to_nat (zlen (p_data (l_small (c_log s))) - fst cp)) with (length ds)
    by (rewrite E1, zlen_app, <- E3; unfold zlen; lia).
  rewrite E1, U1.
  replace (Z.to_nat (zlen (p_data (l_large (c_log s))) - snd cp)) with (length dl)
    by (rewrite E2, zlen_app, <- E4; unfold zlen; lia).
  rewrite E2, U2.
  eexists; split; [reflexivity|].
  constructor; cbn [c_mem c_log c_cps l_small l_large p_data p_cap s_mem s_copies].
  - reflexivity.
  - exact (proj1 SI).
  - exact (proj2 Fs).
  - exact (proj2 Fl).
  - rewrite E1, zlen_app in C1. pose proof (zlen_nonneg _ ds). lia.
  - rewrite E2, zlen_app in C2. pose proof (zlen_nonneg _ dl). lia.
  - apply (Forall2_impl_nth _ _ (cp_ok (p_data (l_small (c_log s)))
             (p_data (l_large (c_log s))) (c_mem s))); [exact (Forall2_firstn _ _ _ (S i) _ _ CP)|].
    intros j a b Ha Hb (ds' & dl' & rs' & rl' & F1 & F2 & F3 & F4 & SJ).
    assert (Hj : (j <= i)%nat).
    { assert (j < length (firstn (S i) (c_cps s)))%nat by (apply nth_error_Some; congruence).
      rewrite firstn_length in H. lia. }
    rewrite nth_error_firstn' in Ha by lia.
    destruct (chain_le _ _ _ _ _ _ _ CH Ha Ec Hj) as [Q1 Q2].
    rewrite E1 in F1. rewrite E2 in F2.
    destruct (app_split _ ds' rs' ds rs (eq_sym F1)) as (x & -> & ->); [lia|].
    destruct (app_split _ dl' rl' dl rl (eq_sym F2)) as (y & -> & ->); [lia|].
    exists x, y, rs', rl'. repeat (split; [auto; fail|]).
    eapply since_between; eauto.
  - rewrite E3, E4. eapply chain_firstn; eauto.
Qed.

Lemma sim_step s p c p' :
  sim s p -> sstep ts p c = Some p' ->
  exists s', cstep grow ts s c = Some s' /\ sim s' p'.
Proof.
  intros SI E. destruct c as [k vals| |i|].
  - now apply sim_adapt with (p := p).
  - destruct SI as [M L S1 L1 C1 C2 CP CH]. cbn [sstep] in E. injection E as <-.
    cbn [cstep]. eexists; split; [reflexivity|].
    constructor; cbn [c_mem c_log c_cps l_small l_large p_data p_cap s_mem s_copies]; auto.
    + apply Forall2_app; [exact CP|]. constructor; [|constructor].
      exists [], [], (p_data (l_small (c_log s))), (p_data (l_large (c_log s))).
      rewrite <- M. repeat (split; [reflexivity|]). now apply since_refl.
    + apply chain_snoc. exact CH.
  - now apply sim_back with (p := p).
  - destruct SI as [M L S1 L1 C1 C2 CP CH]. cbn [sstep] in E. injection E as <-.
    cbn [cstep]. eexists; split; [reflexivity|].
    unfold log_clear.
    constructor; cbn [c_mem c_log c_cps l_small l_large p_data p_cap s_mem s_copies]; auto.
    + rewrite zlen_nil. pose proof (zlen_nonneg _ (p_data (l_small (c_log s)))). lia.
    + rewrite zlen_nil. pose proof (zlen_nonneg _ (p_data (l_large (c_log s)))). lia.
    + exact Logic.I.
Qed.

Lemma sim_run cs s p p' :
  sim s p -> srun ts p cs = Some p' ->
  exists s', crun grow ts s cs = Some s' /\ sim s' p'.
Proof.
  revert s p; induction cs as [|c cs IH]; intros s p SI E.
  - cbn in E. injection E as <-. exists s. auto.
  - cbn [srun] in E. destruct (sstep ts p c) as [p1|] eqn:Es; [|discriminate].
    destruct (sim_step s p c p1 SI Es) as (s1 & Ec & SI1).
    cbn [crun]. rewrite Ec. eauto.
Qed.

Lemma sim_start m : zlen m = N -> sim (mkC log0 m []) (mkS m []).
Proof.
  intros H. constructor; cbn [c_mem c_log c_cps l_small l_large p_data p_cap log0 s_mem s_copies]; auto.
  - reflexivity.
  - reflexivity.
  - exact Logic.I.
Qed.
End Logs.
