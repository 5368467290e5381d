(** Ordered maps keyed by integers, as association lists sorted by key: the
    operations of BTreeMap<u64, _> and BTreeSet<u64> that the encoder front end
    uses.  The second half describes maps whose keys are a contiguous range,
    which is the shape of every reachable map. *)
From Verif Require Import Base.

Definition smap (A : Type) := list (Z * A).

(** BTreeMap::get *)
Fixpoint get {A} (k : Z) (m : smap A) : option A :=
  match m with
  | [] => None
  | (k', v) :: r => if k =? k' then Some v else get k r
  end.
(** BTreeMap::insert *)
Fixpoint put {A} (k : Z) (v : A) (m : smap A) : smap A :=
  match m with
  | [] => [(k, v)]
  | (k', v') :: r =>
      if k <? k' then (k, v) :: m
      else if k =? k' then (k, v) :: r
      else (k', v') :: put k v r
  end.
(** BTreeMap::remove *)
Definition del {A} (k : Z) (m : smap A) : smap A :=
  filter (fun kv => negb (fst kv =? k)) m.
(** `for i in a..b { m.remove(&i); }` *)
Definition del_range {A} (a b : Z) (m : smap A) : smap A :=
  filter (fun kv => negb ((a <=? fst kv) && (fst kv <? b))) m.
(** m.keys().last(), m.keys().next() *)
Definition last_key {A} (m : smap A) : option Z :=
  match m with [] => None | x :: r => Some (fst (last r x)) end.
Definition first_key {A} (m : smap A) : option Z :=
  match m with [] => None | x :: _ => Some (fst x) end.
(** m.range(k..) = m.iter().skip_while(key < k); m.iter().filter(key < k) *)
Definition from_key {A} (k : Z) (m : smap A) : smap A := filter (fun kv => k <=? fst kv) m.
Definition below_key {A} (k : Z) (m : smap A) : smap A := filter (fun kv => fst kv <? k) m.
(** Iterator::find on entries, Iterator::rfind *)
Definition find_entry {A} (p : Z * A -> bool) (m : smap A) : option (Z * A) := find p m.
Definition rfind_entry {A} (p : Z * A -> bool) (m : smap A) : option (Z * A) := find p (rev m).

(** BTreeSet: insert *)
Fixpoint sput (k : Z) (s : list Z) : list Z :=
  match s with
  | [] => [k]
  | x :: r => if k <? x then k :: s else if k =? x then s else x :: sput k r
  end.
Definition sin (k : Z) (s : list Z) : bool := existsb (fun x => x =? k) s.

(** ** Facts *)
Lemma get_put_same A k (v : A) m : get k (put k v m) = Some v.
Proof.
  induction m as [|[k' v'] r IH]; cbn; [rewrite Z.eqb_refl; reflexivity|].
  destruct (Z.ltb_spec k k'); [cbn; rewrite Z.eqb_refl; reflexivity|].
  destruct (Z.eqb_spec k k'); cbn; [rewrite Z.eqb_refl; reflexivity|].
  destruct (Z.eqb_spec k k'); [contradiction|exact IH].
Qed.
Lemma get_put_other A k k2 (v : A) m : k <> k2 -> get k (put k2 v m) = get k m.
Proof.
  intros Hk. induction m as [|[k' v'] r IH]; cbn; [destruct (Z.eqb_spec k k2); [contradiction|reflexivity]|].
  destruct (Z.ltb_spec k2 k'); [cbn; destruct (Z.eqb_spec k k2); [contradiction|reflexivity]|].
  destruct (Z.eqb_spec k2 k'); cbn.
  - subst. destruct (Z.eqb_spec k k'); [contradiction|reflexivity].
  - destruct (Z.eqb_spec k k'); [reflexivity|exact IH].
Qed.
Lemma get_filter A k (p : Z -> bool) (m : smap A) :
  get k (filter (fun kv => p (fst kv)) m) = if p k then get k m else None.
Proof.
  induction m as [|[k' v'] r IH]; cbn; [destruct (p k); reflexivity|].
  destruct (p k') eqn:E; cbn.
  - destruct (Z.eqb_spec k k'); [subst; rewrite E; reflexivity|exact IH].
  - rewrite IH. destruct (Z.eqb_spec k k'); [subst; rewrite E; reflexivity|reflexivity].
Qed.
Lemma get_del A k k2 (m : smap A) : get k (del k2 m) = if k =? k2 then None else get k m.
Proof. unfold del. rewrite (get_filter A k (fun x => negb (x =? k2))). destruct (Z.eqb_spec k k2); reflexivity. Qed.
Lemma get_del_range A k a b (m : smap A) :
  get k (del_range a b m) = if (a <=? k) && (k <? b) then None else get k m.
Proof.
  unfold del_range. rewrite (get_filter A k (fun x => negb ((a <=? x) && (x <? b)))).
  destruct ((a <=? k) && (k <? b)); reflexivity.
Qed.

(** ** Contiguous maps *)
Fixpoint zmap {A} (lo : Z) (l : list A) : smap A :=
  match l with [] => [] | x :: r => (lo, x) :: zmap (lo + 1) r end.

Lemma zmap_app A (l1 l2 : list A) : forall lo, zmap lo (l1 ++ l2) = zmap lo l1 ++ zmap (lo + zlen l1) l2.
Proof.
  induction l1 as [|x r IH]; intros lo; cbn [zmap app]; [rewrite zlen_nil, Z.add_0_r; reflexivity|].
  rewrite IH, zlen_cons. replace (lo + 1 + zlen r) with (lo + (zlen r + 1)) by lia. reflexivity.
Qed.
Lemma zmap_get A (l : list A) : forall lo k, lo <= k -> get k (zmap lo l) = nth_error l (Z.to_nat (k - lo)).
Proof.
  induction l as [|x r IH]; intros lo k Hk; cbn [zmap get]; [destruct (Z.to_nat _); reflexivity|].
  destruct (Z.eqb_spec k lo) as [->|Hn]; [rewrite Z.sub_diag; reflexivity|].
  rewrite IH by lia. replace (Z.to_nat (k - lo)) with (S (Z.to_nat (k - (lo + 1)))) by lia. reflexivity.
Qed.
Lemma zmap_get_low A (l : list A) : forall lo k, k < lo -> get k (zmap lo l) = None.
Proof.
  induction l as [|x r IH]; intros lo k Hk; cbn [zmap get]; [reflexivity|].
  destruct (Z.eqb_spec k lo); [lia|]. apply IH. lia.
Qed.
Lemma zmap_put_end A (l : list A) : forall lo v, put (lo + zlen l) v (zmap lo l) = zmap lo (l ++ [v]).
Proof.
  induction l as [|x r IH]; intros lo v; cbn [zmap put app]; [rewrite zlen_nil, Z.add_0_r; reflexivity|].
  rewrite zlen_cons. assert (Hn := zlen_nonneg _ r).
  destruct (Z.ltb_spec (lo + (zlen r + 1)) lo); [lia|].
  destruct (Z.eqb_spec (lo + (zlen r + 1)) lo); [lia|].
  f_equal. replace (lo + (zlen r + 1)) with (lo + 1 + zlen r) by lia. apply IH.
Qed.
Lemma zmap_put_mid A (l : list A) : forall lo k v, lo <= k < lo + zlen l ->
  put k v (zmap lo l) = zmap lo (set_nth (Z.to_nat (k - lo)) v l).
Proof.
  induction l as [|x r IH]; intros lo k v Hk; [rewrite zlen_nil in Hk; lia|].
  rewrite zlen_cons in Hk. cbn [zmap put].
  destruct (Z.ltb_spec k lo); [lia|]. destruct (Z.eqb_spec k lo) as [->|Hn].
  - rewrite Z.sub_diag. reflexivity.
  - replace (Z.to_nat (k - lo)) with (S (Z.to_nat (k - (lo + 1)))) by lia. cbn [set_nth zmap].
    f_equal. apply IH. lia.
Qed.
Lemma zmap_last_key A (l : list A) lo : l <> [] -> last_key (zmap lo l) = Some (lo + zlen l - 1).
Proof.
  destruct l as [|x r] using rev_ind; [congruence|intros _].
  rewrite zmap_app, zlen_app. cbn [zmap]. rewrite zlen_cons, zlen_nil.
  destruct (zmap lo r) eqn:E; cbn [app last_key].
  - destruct r; [|discriminate]. rewrite zlen_nil. cbn. f_equal. lia.
  - rewrite last_last. cbn. f_equal. lia.
Qed.
Lemma zmap_first_key A (x : A) (l : list A) lo : first_key (zmap lo (x :: l)) = Some lo.
Proof. reflexivity. Qed.
Lemma filter_all {A} (p : A -> bool) l : (forall x, In x l -> p x = true) -> filter p l = l.
Proof.
  induction l as [|x r IH]; intros H; cbn; [reflexivity|].
  rewrite (H x (or_introl eq_refl)). f_equal. apply IH. intros y Hy. apply H. right. exact Hy.
Qed.
Lemma filter_none {A} (p : A -> bool) l : (forall x, In x l -> p x = false) -> filter p l = [].
Proof.
  induction l as [|x r IH]; intros H; cbn; [reflexivity|].
  rewrite (H x (or_introl eq_refl)). apply IH. intros y Hy. apply H. right. exact Hy.
Qed.
Lemma zmap_keys A (l : list A) : forall lo kv, In kv (zmap lo l) -> lo <= fst kv < lo + zlen l.
Proof.
  induction l as [|x r IH]; intros lo kv H; cbn in H; [contradiction|].
  rewrite zlen_cons. assert (Hn := zlen_nonneg _ r). destruct H as [<-|H]; [cbn; lia|].
  specialize (IH _ _ H). lia.
Qed.
Lemma firstn_skipn_zmap A (l : list A) lo n :
  zmap lo l = zmap lo (firstn n l) ++ zmap (lo + zlen (firstn n l)) (skipn n l).
Proof. rewrite <- zmap_app, firstn_skipn. reflexivity. Qed.
Lemma zmap_from A (l : list A) lo k : lo <= k ->
  from_key k (zmap lo l) = zmap k (skipn (Z.to_nat (k - lo)) l).
Proof.
  unfold from_key. intros Hk. revert lo Hk. induction l as [|x r IH]; intros lo Hk.
  - rewrite skipn_nil. reflexivity.
  - cbn [zmap filter fst]. destruct (Z.leb_spec k lo).
    + assert (k = lo) by lia. subst k. rewrite Z.sub_diag. cbn [skipn Z.to_nat zmap]. f_equal.
      apply filter_all. intros kv Hin. apply zmap_keys in Hin. lia.
    + rewrite IH by lia. replace (Z.to_nat (k - lo)) with (S (Z.to_nat (k - (lo + 1)))) by lia. reflexivity.
Qed.
Lemma zmap_below A (l : list A) lo k : lo <= k ->
  below_key k (zmap lo l) = zmap lo (firstn (Z.to_nat (k - lo)) l).
Proof.
  unfold below_key. intros Hk. revert lo Hk. induction l as [|x r IH]; intros lo Hk.
  - rewrite firstn_nil. reflexivity.
  - cbn [zmap filter fst]. destruct (Z.ltb_spec lo k).
    + rewrite IH by lia. replace (Z.to_nat (k - lo)) with (S (Z.to_nat (k - (lo + 1)))) by lia. reflexivity.
    + assert (k = lo) by lia. subst k. rewrite Z.sub_diag. cbn [firstn Z.to_nat zmap].
      apply filter_none. intros kv Hin. apply zmap_keys in Hin. lia.
Qed.
Lemma zmap_del_range A (l : list A) lo b :
  del_range lo b (zmap lo l) = zmap (Z.max lo (Z.min b (lo + zlen l))) (skipn (Z.to_nat (b - lo)) l).
Proof.
  unfold del_range. assert (Hl := zlen_nonneg _ l).
  rewrite (firstn_skipn_zmap A l lo (Z.to_nat (b - lo))) at 1.
  rewrite filter_app, filter_none.
  - cbn [app]. assert (E : zlen (firstn (Z.to_nat (b - lo)) l) = Z.max 0 (Z.min (b - lo) (zlen l))).
    { unfold zlen. rewrite firstn_length. lia. }
    rewrite filter_all.
    + f_equal. lia.
    + intros kv Hin. apply zmap_keys in Hin. destruct (Z.ltb_spec (fst kv) b) as [H|]; [|lia].
      exfalso. assert (zlen (skipn (Z.to_nat (b - lo)) l) = Z.max 0 (zlen l - Z.max 0 (b - lo))).
      { unfold zlen. rewrite skipn_length. lia. } lia.
  - intros kv Hin. apply zmap_keys in Hin. unfold zlen in Hin. rewrite firstn_length in Hin. lia.
Qed.

(** Appending a new maximum to a set. *)
Lemma sput_end k s : Forall (fun x => x < k) s -> sput k s = s ++ [k].
Proof.
  induction 1 as [|x r Hx Hr IH]; cbn; [reflexivity|].
  destruct (Z.ltb_spec k x); [lia|]. destruct (Z.eqb_spec k x); [lia|]. rewrite IH. reflexivity.
Qed.
Lemma sin_in k s : sin k s = true <-> In k s.
Proof.
  unfold sin. rewrite existsb_exists. split.
  - intros (x & H & E). apply Z.eqb_eq in E. subst. exact H.
  - intros H. exists k. split; [exact H|apply Z.eqb_refl].
Qed.
Lemma in_sput k x s : In x (sput k s) <-> x = k \/ In x s.
Proof.
  induction s as [|y r IH]; cbn; [intuition|].
  destruct (Z.ltb_spec k y); [cbn; intuition|]. destruct (Z.eqb_spec k y); cbn; [subst; intuition|].
  rewrite IH. intuition.
Qed.
