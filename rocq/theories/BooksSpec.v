(** * Vocabulary for the books that the Adaptor keeps *)
From stdpp Require Import gmap.
From Verif Require Export AdaptorSpec DeliverSpec.

(** A call that has nothing to do with ResponseWriters.  Handlers of this library are
    not given any: they return a Response. *)
Definition off_writers (c : rcmd) : Prop :=
  match c with
  | RServe _ _ | RNewWriter _ _ | RWriter _ _ => False
  | RB (Call _ (WriteTo _)) => False
  | _ => True
  end.
(** Such calls, and requests of the clients 1, ..., n. *)
Definition server (n : nat) (c : tcmd) : Prop :=
  match c with
  | TDo c => off_writers c
  | TServe f (Some k) _ => (1 <= k <= n)%nat /\ each off_writers f
  | TServe _ None _ => False
  end.
(** The clients of the requests, in order. *)
Definition clients_of (cs : list tcmd) : list uid :=
  omap (fun c => match c with TServe _ (Some k) _ => Some (k - 1)%nat | _ => None end) cs.
(** ReadFrom of a client does not send its source to other Writers. *)
Definition reads_only {V} (U : uenv V) : Prop := forall v u last v' f k, u_readfrom U v u last = (v', inl f) -> f <> WriteTo k.

(** The numbers of bytes counted. *)
Definition sent_in (l : list metric) : list Z := omap (fun m => match m with MSendBytes _ n => Some n | _ => None end) l.
Definition zsum (l : list Z) : Z := foldr Z.add 0 l.
(** The label of a request and what was sent to its client: see C41 for the second case. *)
Definition labelled (label : string) (x : uid * Z) : Prop := label = itoa x.2 \/ label = "0" /\ x.2 = 500.
