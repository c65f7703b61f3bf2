(** * Vocabulary for what a request says to its client *)
From stdpp Require Import gmap.
From Verif Require Export BooksSpec.

(** The client that is called. *)
Definition called (e : uev) : option uid :=
  match e with
  | UAsked _ _ => None
  | UHeader _ u _ _ | UWrite _ u _ _ | UPush _ u _ _ | UFlush _ u _ | UReadFrom _ u _ | UReadFromEnd _ u _ => Some u
  end.
(** The calls to clients. *)
Definition calls (l : list uev) : list uev := List.filter (fun e => match called e with Some _ => true | None => false end) l.
(** Pushes, one status, and then no other; no data if the request is HEAD or the status 204;
    and nothing to any other client. *)
Definition conversation (x : uid * bool) (l : list uev) : Prop :=
  Forall (fun e => called e = Some x.1) (calls l) /\
  exists pushes by_ st r rest, calls l = pushes ++ UHeader by_ x.1 st r :: rest /\
    Forall is_push pushes /\ 100 <= st <= 999 /\ Forall (fun e => ~ is_header e) rest /\
    (x.2 = true \/ st = 204 -> Forall (fun e => ~ is_data e) rest).
(** The clients of the requests, in order, and whether the request is HEAD. *)
Definition requests_of (cs : list tcmd) : list (uid * bool) :=
  omap (fun c => match c with TServe _ (Some k) isHEAD => Some ((k - 1)%nat, isHEAD) | _ => None end) cs.
