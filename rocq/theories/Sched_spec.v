(** Reference definitions for the front-end properties, written from the API
    documentation and the AV1 specification; they use none of the encoder's
    helper functions. *)
From Verif Require Import Base SMap Sched_model.

(** ** The frames a history gets accepted *)
(** Frames handed over before the first flush; a still picture takes one. *)
Fixpoint sends (l : list call) : list (option params) :=
  match l with
  | [] => []
  | Send p :: r => p :: sends r
  | Flush :: _ => []
  | Receive _ :: r => sends r
  end.
Definition accepted (still : bool) (l : list call) : list (option params) :=
  if still then firstn 1 (sends l) else sends l.
Definition flushed (l : list call) : bool :=
  existsb (fun k => match k with Flush => true | _ => false end) l.

(** The packets among the results of a history. *)
Fixpoint packets_of (l : list result) : list packet :=
  match l with
  | [] => []
  | RPacket p :: r => p :: packets_of r
  | _ :: r => packets_of r
  end.

(** 0, 1, 2, ... *)
Fixpoint count_from (a : Z) (n : nat) : list Z :=
  match n with O => [] | S k => a :: count_from (a + 1) k end.

(** Legal settings (EncoderConfig after Config::validate): a key-frame interval
    and an RDO lookahead of at least one, switch frames only in low-latency
    mode. *)
Definition legal (c : config) : Prop :=
  1 <= cf_max_kf c /\ 1 <= cf_rdo_la c /\ 0 <= cf_switch_interval c /\
  (0 < cf_switch_interval c -> cf_low_latency c = true).
(** The frame numbers fit: at most i32::MAX - 1 frames. *)
Definition fits (l : list (option params)) : Prop := zlen l <= 2147483646.

(** ** Where key frames must be *)
Definition wants_key (scene : Z -> bool) (ps : list (option params)) (n : nat) : bool :=
  match nth n ps None with Some p => pr_key p | None => false end || scene (Z.of_nat n).
(** Walking through the frames with the distance to the last key frame. *)
Fixpoint key_pattern (max_kf : Z) (want : nat -> bool) (n : nat) (dist : Z) (len : nat) : list bool :=
  match len with
  | O => []
  | S k =>
      let key := want n || (max_kf <=? dist) in
      key :: key_pattern max_kf want (S n) (if key then 1 else dist + 1) k
  end.

(** ** An AV1 decoder's reference buffers (AV1 specification 5.9.2, 7.20, 7.21)
    A slot holds the 6-bit order hint, the decoded picture, whether it may still
    be shown by show_existing_frame, and the coded video sequence it belongs to. *)
Record dslot := DSlot { ds_hint : Z; ds_pic : pic; ds_showable : bool; ds_cvs : Z }.
Record dstate := DState { d_slots : list (option dslot); d_cvs : Z; d_seq : bool }.
Definition d_init : dstate := DState (repeat None 8) 0 false.

(** What happened while decoding: a frame decoded from reference slots, a
    picture output. *)
Inductive event :=
  | Decoded (h : header) (p : payload) (refs : list dslot) (cvs : Z)
  | Shown (x : pic)
  | Meta (x : Z)
  | NewUnit
  | NewSequence.

(** get_relative_dist (7.9.3... "5.9.3") on OrderHintBits = 6 *)
Definition dist6 (a b : Z) : Z :=
  let d := (a - b) mod 64 in if d <? 32 then d else d - 64.

Fixpoint all_some {A} (l : list (option A)) : option (list A) :=
  match l with
  | [] => Some []
  | None :: _ => None
  | Some x :: r => match all_some r with Some r => Some (x :: r) | None => None end
  end.
Definition pic_eqb (a b : pic) : bool :=
  match a, b with
  | Recon i o, Recon i' o' => (i =? i') && (o =? o')
  | Source i, Source i' => i =? i'
  | _, _ => false
  end.
Definition opic_eqb (a : option pic) (b : pic) : bool :=
  match a with Some a => pic_eqb a b | None => false end.
Fixpoint list_eqb {A B} (f : A -> B -> bool) (l : list A) (m : list B) : bool :=
  match l, m with
  | [], [] => true
  | x :: l, y :: m => f x y && list_eqb f l m
  | _, _ => false
  end.
Fixpoint update (i flags : Z) (x : dslot) (s : list (option dslot)) : list (option dslot) :=
  match s with
  | [] => []
  | y :: r => (if Z.testbit flags i then Some x else y) :: update (i + 1) flags x r
  end.

(** A slot of the encoder's buffer and one of the decoder's *)
Definition same_slot (e : option refframe) (x : option dslot) : bool :=
  match e, x with
  | Some e, Some x => (rf_hint e mod 64 =? ds_hint x) && pic_eqb (rf_pic e) (ds_pic x)
  | None, None => true
  | _, _ => false
  end.

(** One OBU.  [None] is a non-conforming stream or a mismatch with what the
    encoder used: a reference to an empty slot, other reference pictures or
    another direction than the encoder's, other buffers than the encoder's, a hint list that differs from the
    buffers, showing something that may not be shown. *)
Definition dec_obu (still : bool) (d : dstate) (o : obu) : option (dstate * list event) :=
  match o with
  | OTemporalDelimiter => Some (d, [NewUnit])
  | OSequence => Some (DState (d_slots d) (d_cvs d) true, [NewSequence])
  | OT35 x => Some (d, [Meta x])
  | OFrameHeader h =>
      if negb (h_sef h) then None else
      if negb ((0 <=? h_map_idx h) && (h_map_idx h <? 8)) then None else
      match nth (Z.to_nat (h_map_idx h)) (d_slots d) None with
      | Some x =>
          if ds_showable x then
            Some (DState (set_nth (Z.to_nat (h_map_idx h)) (Some (DSlot (ds_hint x) (ds_pic x) false (ds_cvs x)))
                            (d_slots d)) (d_cvs d) (d_seq d), [Shown (ds_pic x)])
          else None
      | None => None
      end
  | OFrame h p =>
      if h_sef h then None else
      let pic := Recon (pl_input p) (pl_out p) in
      let shown := if h_show h then [Shown pic] else [] in
      match h_type h with
      | KEY =>
          (* a shown key frame starts a coded video sequence, needs a sequence
             header in its temporal unit and replaces every slot *)
          if h_show h && (h_refresh h =? 255) && d_seq d && list_eqb opic_eqb (pl_refs p) [] then
            let x := DSlot (h_hint h) pic false (d_cvs d + 1) in
            Some (DState (update 0 255 x (d_slots d)) (d_cvs d + 1) false, Decoded h p [] (d_cvs d + 1) :: shown)
          else None
      | _ =>
          if negb ((length (h_refs h) =? 7)%nat && forallb (fun r => (0 <=? r) && (r <? 8)) (h_refs h)) then None else
          match all_some (map (fun r => nth (Z.to_nat r) (d_slots d) None) (h_refs h)) with
          | None => None
          | Some refs =>
              if list_eqb opic_eqb (pl_refs p) (map ds_pic refs)
                 && list_eqb same_slot (pl_slots p) (d_slots d)
                 && list_eqb Bool.eqb (pl_bias p)
                      (map (fun r => negb still && (0 <? dist6 (ds_hint r) (h_hint h))) refs)
                 && (negb (h_error_res h) || still ||
                     list_eqb Z.eqb (h_ref_hints h) (map (fun x => match x with Some x => ds_hint x | None => 0 end) (d_slots d)))
                 && (match h_type h with SWITCH => h_show h && (h_refresh h =? 255) && h_error_res h | _ => true end)
                 && (negb (h_error_res h) || (h_primary h =? 7))
                 && (0 <=? h_primary h) && (h_primary h <=? 7)
                 && (0 <=? h_hint h) && (h_hint h <? 64)
              then
                let x := DSlot (h_hint h) pic (negb (h_show h)) (d_cvs d) in
                Some (DState (update 0 (h_refresh h) x (d_slots d)) (d_cvs d) (d_seq d),
                      Decoded h p refs (d_cvs d) :: shown)
              else None
          end
      end
  end.
Fixpoint dec_obus (still : bool) (d : dstate) (l : list obu) : option (dstate * list event) :=
  match l with
  | [] => Some (d, [])
  | o :: r =>
      match dec_obu still d o with
      | None => None
      | Some (d, ev) =>
          match dec_obus still d r with
          | None => None
          | Some (d, ev') => Some (d, ev ++ ev')
          end
      end
  end.

(** A temporal unit (7.5): starts with its only temporal delimiter and shows
    exactly one frame, the last thing in it. *)
Fixpoint shown_of (l : list event) : list pic :=
  match l with [] => [] | Shown x :: r => x :: shown_of r | _ :: r => shown_of r end.
Definition is_td (o : obu) : bool := match o with OTemporalDelimiter => true | _ => false end.
Definition shows (o : obu) : bool :=
  match o with OFrame h _ => h_show h | OFrameHeader _ => true | _ => false end.
Definition temporal_unit (l : list obu) : Prop :=
  exists body lst, l = OTemporalDelimiter :: body ++ [lst] /\
    forallb (fun o => negb (is_td o) && negb (shows o)) body = true /\ shows lst = true /\ is_td lst = false.

Fixpoint dec_packets (still : bool) (d : dstate) (l : list packet) : option (dstate * list (list event)) :=
  match l with
  | [] => Some (d, [])
  | p :: r =>
      match dec_obus still d (p_data p) with
      | None => None
      | Some (d, ev) =>
          match dec_packets still d r with
          | None => None
          | Some (d, evs) => Some (d, ev :: evs)
          end
      end
  end.
(** The metadata inside a packet. *)
Fixpoint t35_of (l : list obu) : list Z :=
  match l with [] => [] | OT35 x :: r => x :: t35_of r | _ :: r => t35_of r end.
