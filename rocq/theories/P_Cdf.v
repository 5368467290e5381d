(** C09: rolling back probability tables is exact. *)
From Verif Require Import Base Cdf_model Cdf_spec Cdf_proof.
Local Open Scope Z_scope.

(** C09.  Whatever tables are adapted, to whatever values, and however
    checkpoints are taken, used again or forgotten, the log with its two
    partitions behaves as if every checkpoint were a full copy of the tables:
    no access leaves the structure or the log's reserved space, no debug
    assertion fails, and the tables are the same after every history. *)
Theorem C09_rollback_exact grow m cs p :
  reserves grow -> zlen m = cdf_words ->
  srun cdf_tables (mkS m []) cs = Some p ->
  exists s, crun grow cdf_tables (mkC log0 m []) cs = Some s /\ c_mem s = s_mem p.
Proof.
  intros GR L E.
  destruct (sim_run cdf_tables cdf_words cdf_layout_ok grow GR cs _ _ _
              (sim_start cdf_tables cdf_words m L) E) as (s & Es & SI).
  exists s. split; [exact Es|]. exact (sm_mem _ _ _ _ SI).
Qed.
Print Assumptions C09_rollback_exact.

(** The same for any structure whose windows respect the two kinds of tables. *)
Theorem C09_rollback_exact_layout ts N grow m cs p :
  layout_ok ts N -> reserves grow -> zlen m = N ->
  srun ts (mkS m []) cs = Some p ->
  exists s, crun grow ts (mkC log0 m []) cs = Some s /\ c_mem s = s_mem p.
Proof.
  intros LO GR L E.
  destruct (sim_run ts N LO grow GR cs _ _ _ (sim_start ts N m L) E) as (s & Es & SI).
  exists s. split; [exact Es|]. exact (sm_mem _ _ _ _ SI).
Qed.
Print Assumptions C09_rollback_exact_layout.

(** Not vacuous: a history with overlapping windows, both partitions, the last
    table of the structure, nested checkpoints and a reused one.  Table 2 is
    adapted for good before the first checkpoint. *)
Definition c09_hist : list cmd :=
  [ Adapt 2 [11; 12]; Save; Adapt 0 [1; 2]; Adapt 1 [3; 4]; Adapt 0 [5; 6]; Save;
    Adapt 1266 [1; 2; 3; 4; 5; 6; 7; 8; 9; 10; 11]; Adapt 1265 [7; 7; 7; 7];
    Adapt 1070 [9; 9; 9; 9; 9; 9; 9]; Back 1; Adapt 1 [8; 8]; Back 0; Adapt 1 [6; 6]; Back 0 ].
Definition c09_mem : list Z := repeat 32767 (Z.to_nat cdf_words).

Example c09_hist_runs :
  match srun cdf_tables (mkS c09_mem []) c09_hist,
        crun (fun _ n e => n + e) cdf_tables (mkC log0 c09_mem []) c09_hist with
  | Some p, Some s =>
      firstn 8 (c_mem s) = [32767; 32767; 32767; 32767; 11; 12; 32767; 32767] /\
      length (p_data (l_small (c_log s))) = 1%nat /\
      length (s_copies p) = 1%nat
  | _, _ => False
  end.
Proof. vm_compute. repeat split. Qed.

Example c09_shape : cdf_words = 5530 /\ length cdf_tables = 1267%nat /\
  nth_error cdf_tables 1266 = Some (mkTable 5514 11) /\
  nth_error cdf_tables 1070 = Some (mkTable 3737 7).
Proof. vm_compute. repeat split. Qed.
