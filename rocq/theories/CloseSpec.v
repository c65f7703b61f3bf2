(** * Vocabulary for who closes the Reader of a Response *)
From stdpp Require Import gmap.
From Verif Require Export ReplySpec.

(** [Close] was called once on [rd], if it has that method, and nothing after it. *)
Definition released {V} (U : uenv V) (rd : rid) (s : state V) : Prop :=
  if is_closer (ev_caps (u_env U) rd)
  then exists pre err, calls_on rd (h_log (s_h s)) = pre ++ [EvClose rd err] /\ Forall not_close pre
  else Forall not_close (calls_on rd (h_log (s_h s))).
(** The Body of the Response [y] is all that is open of [rd]. *)
Definition owned_by {V} (U : uenv V) (fuel : nat) (rd : rid) (s : state V) (y : response) : Prop :=
  forall j, holds U fuel s j rd -> rp_body y = Some j.
(** What is open of [rd] at [s'] has been made since [s]; without it, [rd] has been closed. *)
Definition let_go {V} (U : uenv V) (fuel : nat) (rd : rid) (s s' : state V) : Prop :=
  (forall j, holds U fuel s' j rd -> (length (h_b (s_h s)) <= j)%nat) /\
  (length (h_b (s_h s')) = length (h_b (s_h s)) -> released U rd s').

(** The Handler
      body, err := new; if err != nil { panic(nil) }; rest(body) *)
Definition opening (new : cmd) (rest : nat -> handler) : handler :=
  HDo (RB new) (fun o => match o with ORet (YBody (RBody i None)) => rest i | _ => HPanic None end).
