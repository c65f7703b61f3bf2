(** * Vocabulary for what Serve writes on a client that can fail *)
From stdpp Require Import gmap.
From Verif Require Export DeliverSpec ShortSpec.

(** The calls of Write on the client: the bytes and the result. *)
Definition write_of (e : uev) : option (bytes * (Z * option error + panic)) :=
  match e with UWrite _ _ p res => Some (p, res) | _ => None end.
Definition client_writes (new : list uev) : list (bytes * (Z * option error + panic)) := omap write_of new.
(** All bytes were accepted. *)
Definition in_full (x : bytes * (Z * option error + panic)) : Prop := x.2 = inl (zlen x.1, None).
(** The client keeps to the rule of io.Writer: a Write that does not take all bytes
    reports an error. *)
Definition fair_writer {V} (U : uenv V) (u : uid) : Prop :=
  forall v p v' n, ev_write (u_env U) v u p = (v', inl (n, None)) -> n = zlen p.
(** The body was handed to a ReadFrom of the client. *)
Definition by_readfrom (new : list uev) : Prop := exists by_ u b, UReadFrom by_ u b ∈ new.

(** The Body [j] stands at [n]. *)
Definition tells {V} (U : uenv V) (fuel : nat) (s : state V) (j : nat) (n : Z) : Prop :=
  exists s', texec U fuel (TDo (RB (Call j (Seek 0 SeekCurrent)))) s = (s', ORet (YBody (RSeek n None))).

(** What a Body made of bytes in memory still has. *)
Definition left_in (b : bytesBody) : bytes := if by_closed b || by_eof b then [] else drop (Z.to_nat (by_offset b)) (by_data b).

(** Serving a Response whose body is [i], on any ResponseWriter or Writer, with any
    outcome: what is written on the client is the beginning of [R]; nothing is
    written after a Write that failed or took too few bytes; nothing at all is written
    in answer to HEAD or with status 204; and Serve returns nil only if every Write
    took everything.  In that case, if [all] holds, the whole of [R] was written,
    unless the response has no body (HEAD, 204) or the client took it with ReadFrom.
    If [checked] does not hold, a client is believed that accepts too few bytes and
    reports no error. *)
Definition safely {V} (U : uenv V) (fuel : nat) (checked all : Prop) (s : state V) (i : nat) (R : bytes) : Prop :=
  forall r x k by_ u s' o new,
    s_rps s !! r = Some x -> rp_body x = Some i -> target s k = Some (by_, u) ->
    serving U fuel s r k s' o new -> feasible (s_h s') ->
    concat ((client_writes new).*1) `prefix_of` R /\
    Forall in_full (removelast (client_writes new)) /\
    (bodiless s k (rp_code x) = true -> client_writes new = []) /\
    (o = ORet (YErr None) -> checked \/ fair_writer U u ->
       Forall in_full (client_writes new) /\
       (all -> bodiless s k (rp_code x) = false -> ~ by_readfrom new -> concat ((client_writes new).*1) = R)).
