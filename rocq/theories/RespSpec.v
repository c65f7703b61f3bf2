(** * Vocabulary for the properties of the response and handler packages *)
From stdpp Require Import gmap.
From Verif Require Export RespModel Spec.

(** ** Reachable states

    Any outside world, any ResponseWriters and header maps to begin with, any
    program of calls on Bodies, Builders, Responses, Writers, header maps and
    Adaptors with any handlers. *)

(** The slices in header maps lie within arrays. *)
Definition sound_slice (arrs : list (list string)) (v : slice_) : Prop :=
  match sl_arr v with
  | None => sl_len v = 0%nat /\ sl_cap v = 0%nat
  | Some a => exists l, arrs !! a = Some l /\ (sl_len v <= sl_cap v)%nat /\ (sl_off v + sl_cap v <= length l)%nat
  end.
Definition sound_map (arrs : list (list string)) (x : gmap string slice_) : Prop :=
  forall key v, x !! key = Some v -> sound_slice arrs v.
Definition sound_maps (arrs : list (list string)) (maps : list (gmap string slice_)) : Prop :=
  forall m x, maps !! m = Some x -> sound_map arrs x.
Definition treaches {V} (U : uenv V) (fuel : nat) (s : state V) : Prop :=
  exists v n maps arrs cs os, sound_maps arrs maps /\ thistory U fuel (tinitial v n maps arrs) cs = (s, os).

Definition world {V} (s : state V) : wst V := h_w (s_h s).
Definition wlog {V} (s : state V) : list uev := v_log (world s).

(** ** Writers *)
Definition made_by (e : uev) : option wid :=
  match e with
  | UAsked _ _ => None
  | UHeader k _ _ _ | UWrite k _ _ _ | UPush k _ _ _ | UFlush k _ _ | UReadFrom k _ _ | UReadFromEnd k _ _ => k
  end.
(** The calls made on the outside writer by wrapper [k], in order. *)
Definition sent_by (k : wid) (log : list uev) : list uev := filter (fun e => made_by e = Some k) log.
Definition is_push (e : uev) : Prop := match e with UPush _ _ _ _ => True | _ => False end.
Definition is_header (e : uev) : Prop := match e with UHeader _ _ _ _ => True | _ => False end.
(** Calls that carry body data. *)
Definition is_data (e : uev) : Prop := match e with UWrite _ _ _ _ | UReadFrom _ _ _ | UReadFromEnd _ _ _ => True | _ => False end.
(** Bytes accepted: counts that are negative are rejected by the code. *)
Definition accepted (e : uev) : Z :=
  match e with
  | UWrite _ _ _ (inl (n, _)) | UReadFromEnd _ _ (inl (n, _)) => if n <? 0 then 0 else n
  | _ => 0
  end.
Definition total_accepted (l : list uev) : Z := foldr Z.add 0 (map accepted l).
Definition write_failed (e : uev) : Prop :=
  match e with UWrite _ _ _ (inl (n, Some _)) => 0 <= n | _ => False end.
(** WriteHeader was called with a proper status on wrapper [k] after it had sent a header. *)
Definition asked_twice (k : wid) (log : list uev) : Prop :=
  exists l1 u st r l2 st' l3, log = l1 ++ UHeader (Some k) u st r :: l2 ++ UAsked k st' :: l3 /\ 100 <= st' <= 999.

(** What the methods of wrapper [k] report. *)
Definition reports {V} (U : uenv V) (fuel : nat) (s : state V) (k : wid) (f : wop) (y : reply) : Prop :=
  texec U fuel (TDo (RWriter k f)) s = (s, ORet y).
