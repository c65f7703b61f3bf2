(** * Vocabulary for what a client gets of the calls to a Builder *)
From stdpp Require Import gmap.
From Verif Require Export ValueSpec TemplateSpec SafeSpec.

(** A program as in [mindfully], within the size bounds of [go_rcmd]. *)
Definition mindfully_within {V} (U : uenv V) (fuel n0 : nat) (s : state V) : Prop :=
  exists v n maps arrs cs os, length maps = n0 /\ sound_maps arrs maps /\ Forall (each_in (mindful n0)) cs /\ Forall (each_in (go_rcmd U)) cs /\
    thistory U fuel (tinitial v n maps arrs) cs = (s, os) /\ OSpin ∉ os.

(** The request on [k] at [s], on the client [u] whose header [h] has the contents [Y], is
    answered with the value [w], and with the bytes [R] unless it is HEAD or 204.
    [busy]: the source may keep its callers waiting for ever. *)
Definition answered {V} (fuel : nat) (busy : Prop) (s : state V) (k : wid) (u : uid) (h : mid) (got : V -> bytes) (isHEAD : bool) (Y : header)
    (w : value) (R : bytes) (s' : state V) (o : out reply) : Prop :=
  let k' : wid := length (v_objs (world s)) in
  o = OSpin /\ (busy \/ (fuel < length R + 2)%nat) \/
  o = ORet YUnit /\
  got (v_v (world s')) = got (v_v (world s)) ++ (if isHEAD || (v_code w =? 204) then [] else R) /\
  statuses_in (sent_by k' (wlog s')) = [(u, v_code w)] /\
  view s' h = Some (delete "Push" (v_header w) ∪ Y) /\
  s_met s' = s_met s ++ tally (itoa (v_code w)) (wrap64 (total_accepted (sent_by k' (wlog s')))).
(** A client that accepts everything. *)
Definition client {V} (U : uenv V) (s : state V) (k : wid) (u : uid) (h : mid) (got : V -> bytes) (Y : header) : Prop :=
  target s k = Some (None, u) /\ accepting U u got /\ (forall v, u_map U v u = h) /\ (forall v r, (ev_close (u_env U) v r).2 = None) /\ view s h = Some Y.

(** ** A Handler that builds its answer
      body := new; return response.NewBuilder().f1(…)…fn(…).WithBody(body).Build() *)
Fixpoint calling (b : nat) (fs : list bdop) (rest : handler) : handler :=
  match fs with
  | [] => rest
  | f :: fs => HDo (RBuilder b f) (fun o => match o with ORet _ => calling b fs rest | OPanic e => HPanic (Some e) | OSpin => HPanic None end)
  end.
Definition reply_after (new : cmd) (fs : list bdop) : handler :=
  HDo (RB new) (fun o => match o with
  | ORet (YBody (RBody i None)) =>
      HDo RNewBuilder (fun o => match o with
      | ORet (YHandle (Some b)) => calling b (fs ++ [WithBody (Some i)]) (HDo (RBuild b) (fun o => match o with ORet (YHandle r) => HReturn r | _ => HPanic None end))
      | _ => HPanic None
      end)
  | _ => HPanic None
  end).
(** A call that does not raise. *)
Definition legal {V} (U : uenv V) (f : bdop) : Prop :=
  match f with
  | WithStatus c => 200 <= c <= 999
  | WithBody i => i <> None
  | WithError _ => True
  | _ => header_helper f /\ forall X, header_after U f X <> None
  end.
