(** Model of the undo log of the probability tables: the layout of
    [CDFContext] and the two log partitions (src/context/cdf_context.rs,
    src/context/block_unit.rs).

    Memory is the list of the 16-bit words of one [CDFContext].  Offsets are
    in words inside the model of the layout and in bytes where the code uses
    bytes.  Out-of-structure accesses, writes past the reserved capacity of a
    log and failed debug assertions are [None]. *)
From Verif Require Import Base.
From Coq Require String.
Export String.StringSyntax.
Local Open Scope Z_scope.

(** A field: name, number of tables, words per table, and whether it holds
    tables (padding does not). *)
Record field := mkField { f_name : String.string; f_count : Z; f_len : Z; f_tab : bool }.
Definition fld n c l := mkField n c l true.

Open Scope string_scope.
(** block_unit.rs 528–545, [NMVComponent] ([repr(C)]).
    CLASS0_SIZE = 2, MV_OFFSET_BITS = 11 + 1 - 2, MV_FP_SIZE = 4,
    MV_CLASSES = 11 (mod.rs 105–124). *)
Definition nmv_component : list field :=
  [ fld "sign_cdf" 1 2; fld "class0_hp_cdf" 1 2; fld "hp_cdf" 1 2;
    fld "class0_cdf" 1 2; fld "bits_cdf" 10 2;
    fld "class0_fp_cdf" 2 4; fld "fp_cdf" 1 4;
    fld "classes_cdf" 1 11; mkField "padding" 1 5 false ].

(** block_unit.rs 546–553, [NMVContext] ([repr(C)]). *)
Definition nmv_context : list field :=
  [ fld "joints_cdf" 1 4; mkField "padding" 1 12 false ]
    ++ nmv_component ++ nmv_component.

(** cdf_context.rs 21–94, [CDFContext] ([repr(C)], every element is [u16], so
    there is no implicit padding).  An array of arrays is the number of
    innermost arrays and their length. *)
Definition cdf_context : list field :=
  [ fld "comp_bwd_ref_cdf" (2 * 3) 2;        (* BWD_REFS - 1, REF_CONTEXTS *)
    fld "comp_mode_cdf" 5 2;                 (* COMP_INTER_CONTEXTS *)
    fld "comp_ref_cdf" (3 * 3) 2;            (* FWD_REFS - 1, REF_CONTEXTS *)
    fld "comp_ref_type_cdf" 5 2;             (* COMP_REF_TYPE_CONTEXTS *)
    fld "dc_sign_cdf" (3 * 2) 2;             (* DC_SIGN_CONTEXTS, PLANE_TYPES *)
    fld "drl_cdfs" 3 2;                      (* DRL_MODE_CONTEXTS *)
    fld "eob_extra_cdf" (9 * 2 * 5) 2;       (* EOB_COEF_CONTEXTS, .., TX_SIZES *)
    fld "filter_intra_cdfs" 22 2;            (* BLOCK_SIZES_ALL *)
    fld "intra_inter_cdfs" 4 2;
    fld "lrf_sgrproj_cdf" 1 2;
    fld "lrf_wiener_cdf" 1 2;
    fld "newmv_cdf" 7 2;
    fld "palette_uv_mode_cdfs" 2 2;
    fld "palette_y_mode_cdfs" (3 * 7) 2;
    fld "refmv_cdf" 6 2;
    fld "single_ref_cdfs" (6 * 3) 2;
    fld "skip_cdfs" 3 2;
    fld "txb_skip_cdf" (13 * 5) 2;
    fld "txfm_partition_cdf" 21 2;           (* (TX_SIZES - 1) * 6 - 3 *)
    fld "zeromv_cdf" 2 2;
    fld "tx_size_8x8_cdf" 3 2;               (* MAX_TX_DEPTH = 2 *)
    fld "inter_tx_3_cdf" 4 2;
    fld "coeff_base_eob_cdf" (4 * 2 * 5) 3;
    fld "lrf_switchable_cdf" 1 3;
    fld "tx_size_cdf" (3 * 3) 3;             (* TX_SIZE_CONTEXTS, BIG_TX_CATS *)
    fld "coeff_base_cdf" (42 * 2 * 5) 4;
    fld "coeff_br_cdf" (21 * 2 * 5) 4;
    fld "deblock_delta_cdf" 1 4;             (* DELTA_LF_PROBS + 1 *)
    fld "deblock_delta_multi_cdf" 4 4;
    fld "partition_w8_cdf" 4 4;
    fld "eob_flag_cdf16" (2 * 2) 5;
    fld "intra_tx_2_cdf" (13 * 4) 5;
    fld "eob_flag_cdf32" (2 * 2) 6;
    fld "angle_delta_cdf" 8 7;
    fld "eob_flag_cdf64" (2 * 2) 7;
    fld "intra_tx_1_cdf" (13 * 4) 7;
    fld "cfl_sign_cdf" 1 8;
    fld "compound_mode_cdf" 8 8;
    fld "eob_flag_cdf128" (2 * 2) 8;
    fld "spatial_segmentation_cdfs" 3 8;
    fld "partition_w128_cdf" 4 8;
    fld "eob_flag_cdf256" (2 * 2) 9;
    fld "eob_flag_cdf512" (2 * 2) 10;
    fld "partition_cdf" (3 * 4) 10;
    fld "eob_flag_cdf1024" (2 * 2) 11;
    fld "inter_tx_2_cdf" 4 12;
    fld "kf_y_cdf" (5 * 5) 13;
    fld "y_mode_cdf" 4 13;
    fld "uv_mode_cdf" 13 13;
    fld "uv_mode_cfl_cdf" 13 14;
    fld "cfl_alpha_cdf" 6 16;
    fld "inter_tx_1_cdf" 4 16 ] ++ nmv_context.
Close Scope string_scope.

(** A table: word offset and number of words. *)
Record table := mkTable { t_off : Z; t_len : Z }.

(** The tables of one field at word offset [o]. *)
Fixpoint field_tables (o len : Z) (n : nat) : list table :=
  match n with
  | O => []
  | S k => mkTable o len :: field_tables (o + len) len k
  end.

(** All tables of a structure, in memory order. *)
Fixpoint layout (o : Z) (fs : list field) : list table :=
  match fs with
  | [] => []
  | f :: r =>
      (if f_tab f then field_tables o (f_len f) (Z.to_nat (f_count f)) else [])
        ++ layout (o + f_count f * f_len f) r
  end.

(** Words in a structure. *)
Fixpoint struct_words (fs : list field) : Z :=
  match fs with [] => 0 | f :: r => f_count f * f_len f + struct_words r end.

Definition cdf_tables : list table := layout 0 cdf_context.
Definition cdf_words : Z := struct_words cdf_context.

(** ** Memory *)
Definition mem := list Z.

(** Copy [n] words starting at word [o]. *)
Definition rd (m : mem) (o n : Z) : option (list Z) :=
  if (0 <=? o) && (o + n <=? zlen m) then
    Some (firstn (Z.to_nat n) (skipn (Z.to_nat o) m))
  else None.

(** Overwrite the words starting at word [o]. *)
Definition wr (m : mem) (o : Z) (v : list Z) : option mem :=
  if (0 <=? o) && (o + zlen v <=? zlen m) then
    Some (firstn (Z.to_nat o) m ++ v ++ skipn (Z.to_nat o + length v) m)
  else None.

(** ** One log partition (cdf_context.rs 587–642) *)

(** A row of the log: the saved words and the byte offset as [u16]. *)
Record entry := mkEntry { e_words : list Z; e_off : Z }.

(** [CDFContextLogPartition]: the rows, newest first, and the capacity of the
    vector. *)
Record part := mkPart { p_data : list entry; p_cap : Z }.

Section Part.
(** [Vec::reserve]: the new capacity, from the old capacity, the length and
    the requested extra room. *)
Variable grow : Z -> Z -> Z -> Z.

(** [push], cdf_context.rs 597–627, with CDF_LEN_MAX_PLUS_1 = [w] + 1 and
    [off] the byte offset; the caller then writes [vals] through the returned
    reference to the table. *)
Definition part_push (w : Z) (p : part) (m : mem) (off : Z) (vals : list Z)
  : option (part * mem) :=
  if negb (zlen vals <? w + 1) then None else
  if negb (off <=? 65535) then None else
  let new_len := zlen (p_data p) + 1 in
  if negb (new_len <=? p_cap p) then None else
  match rd m (off / 2) w with
  | None => None
  | Some saved =>
      let data := mkEntry saved (u16 off) :: p_data p in
      let cap := if w + 1 >? u64 (p_cap p - new_len)
                 then grow (p_cap p) new_len (w + 1) else p_cap p in
      match wr m (off / 2) vals with
      | None => None
      | Some m' => Some (mkPart data cap, m')
      end
  end.

(** The loop of [rollback], cdf_context.rs 628–642: undo the newest [n] rows. *)
Fixpoint undo (n : nat) (d : list entry) (m : mem) : option (list entry * mem) :=
  match n with
  | O => Some (d, m)
  | S k =>
      match d with
      | [] => None
      | e :: d' =>
          match wr m (e_off e / 2) (e_words e) with
          | None => None
          | Some m' => undo k d' m'
          end
      end
  end.

Definition part_rollback (p : part) (m : mem) (checkpoint : Z) : option (part * mem) :=
  match undo (Z.to_nat (zlen (p_data p) - checkpoint)) (p_data p) m with
  | None => None
  | Some (d, m') => Some (mkPart d (p_cap p), m')
  end.

(** ** Both partitions (cdf_context.rs 644–691) *)
Record log := mkLog { l_small : part; l_large : part }.

(** [Default], 653–660: capacities are at least what was asked for; the model
    takes exactly that. *)
Definition log0 : log := mkLog (mkPart [] (2 ^ 16)) (mkPart [] (2 ^ 9)).

(** [checkpoint], 663–668. *)
Definition checkpoint (l : log) : Z * Z :=
  (zlen (p_data (l_small l)), zlen (p_data (l_large l))).

(** [push], 669–678, CDF_LEN_SMALL = 4, CDF_LEN_MAX = 16.  The compile-time
    length is the length of the values written. *)
Definition log_push (l : log) (m : mem) (off : Z) (vals : list Z) : option (log * mem) :=
  if zlen vals <=? 4 then
    match part_push 4 (l_small l) m off vals with
    | Some (p, m') => Some (mkLog p (l_large l), m')
    | None => None
    end
  else
    match part_push 16 (l_large l) m off vals with
    | Some (p, m') => Some (mkLog (l_small l) p, m')
    | None => None
    end.

(** [rollback], 679–685. *)
Definition log_rollback (l : log) (m : mem) (c : Z * Z) : option (log * mem) :=
  match part_rollback (l_small l) m (fst c) with
  | None => None
  | Some (ps, m1) =>
      match part_rollback (l_large l) m1 (snd c) with
      | None => None
      | Some (pl, m2) => Some (mkLog ps pl, m2)
      end
  end.

(** [clear], 686–689; a vector keeps its capacity. *)
Definition log_clear (l : log) : log :=
  mkLog (mkPart [] (p_cap (l_small l))) (mkPart [] (p_cap (l_large l))).

(** ** Histories
    What the encoder does with the log: adapt the table number [k] (the
    pointer passed to [offset], 548–555, is always that of a table of the
    structure; [symbol_with_update] in ec.rs 548–560 writes the new values),
    take a checkpoint, go back to a checkpoint taken earlier, and forget
    everything (encoder.rs 3490). *)
Inductive cmd :=
| Adapt (k : nat) (vals : list Z)
| Save
| Back (i : nat)
| Forget.

(** The log, the memory and the checkpoints held by callers, oldest first.
    Going back to one invalidates the later ones. *)
Record cstate := mkC { c_log : log; c_mem : mem; c_cps : list (Z * Z) }.

Definition cstep (ts : list table) (s : cstate) (c : cmd) : option cstate :=
  match c with
  | Adapt k vals =>
      match nth_error ts k with
      | None => None
      | Some t =>
          if negb (zlen vals =? t_len t) then None else
          match log_push (c_log s) (c_mem s) (2 * t_off t) vals with
          | None => None
          | Some (l, m) => Some (mkC l m (c_cps s))
          end
      end
  | Save => Some (mkC (c_log s) (c_mem s) (c_cps s ++ [checkpoint (c_log s)]))
  | Back i =>
      match nth_error (c_cps s) i with
      | None => None
      | Some cp =>
          match log_rollback (c_log s) (c_mem s) cp with
          | None => None
          | Some (l, m) => Some (mkC l m (firstn (S i) (c_cps s)))
          end
      end
  | Forget => Some (mkC (log_clear (c_log s)) (c_mem s) [])
  end.

Fixpoint crun (ts : list table) (s : cstate) (cs : list cmd) : option cstate :=
  match cs with
  | [] => Some s
  | c :: r => match cstep ts s c with None => None | Some s' => crun ts s' r end
  end.
End Part.
