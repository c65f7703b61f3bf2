(** * Vocabulary for clients that can fail but do not lie *)
From stdpp Require Import gmap.
From Verif Require Export SafeSpec.

(** What a ReadFrom of the client does next: it asks for more, with a buffer that Go can
    make; it returns nil; or it gives up with an error or a panic. *)
Inductive next_step := Asks | Content | GivesUp | Strays.
Definition step_of (x : op + (Z * option error + panic)) : next_step :=
  match x with
  | inl (Read p) => if zlen p <=? max_slice then Asks else Strays
  | inl _ => Strays
  | inr (inl (_, None)) => Content
  | inr _ => GivesUp
  end.

(** ** An honest client

    [got] are the bytes it has received.  It may fail at any time, and then it may have
    taken any part of what it was given, but it says so: Write returns nil only if it
    took everything, and ReadFrom calls nothing but Read, goes on only if it took what
    it has read, and returns nil only if it took what it has read and that ended with
    EOF.  A panic of Read ends ReadFrom.  Nobody but its own methods changes what it
    got. *)
Record honest {V} (U : uenv V) (u : uid) (got : V -> bytes) : Prop := {
  ho_write : forall v p v' res, ev_write (u_env U) v u p = (v', res) ->
    exists n, (n <= length p)%nat /\ got v' = got v ++ take n p /\ forall z, res = inl (z, None) -> n = length p;
  ho_readfrom : forall v last v' x, u_readfrom U v u last = (v', x) ->
    match last with
    | None => got v' = got v /\ (step_of x = Asks \/ step_of x = GivesUp)
    | Some (ORet (RRead n q err)) => exists m, (m <= Z.to_nat n)%nat /\ got v' = got v ++ take m q /\
        (step_of x = Asks /\ m = Z.to_nat n \/ step_of x = Content /\ m = Z.to_nat n /\ err = Some EOF \/ step_of x = GivesUp)
    | Some _ => got v' = got v /\ step_of x = GivesUp
    end;
  ho_header : forall v st, got (u_writeheader U v u st).1 = got v;
  ho_push : forall v url, got (u_push U v u url).1 = got v;
  ho_read : forall v r p, got (ev_read (u_env U) v r p).1 = got v;
  ho_readat : forall v r p off, got (ev_readat (u_env U) v r p off).1 = got v;
  ho_seek : forall v r off wh, got (ev_seek (u_env U) v r off wh).1 = got v;
  ho_close : forall v r, got (ev_close (u_env U) v r).1 = got v;
  ho_stat : forall v r, got (ev_stat (u_env U) v r).1 = got v;
  ho_hazard : forall v c v' e, u_hazard U v c = Some (v', e) -> got v' = got v
}.

(** Serving a Response whose body is [i], on any honest client or a Writer for it, with
    any outcome: the client gets a beginning of [R], and nothing if the response has no
    body (HEAD, 204).  Serve returns nil only if the client got all of [R], if [all]
    holds and there is a body to send. *)
Definition owns_up {V} (U : uenv V) (fuel : nat) (all : Prop) (s : state V) (i : nat) (R : bytes) : Prop :=
  forall r x k by_ u got s' o,
    s_rps s !! r = Some x -> rp_body x = Some i -> target s k = Some (by_, u) -> honest U u got ->
    texec U fuel (TDo (RServe r k)) s = (s', o) -> feasible (s_h s') ->
    exists X, got (v_v (world s')) = got (v_v (world s)) ++ X /\ X `prefix_of` R /\
      (bodiless s k (rp_code x) = true -> X = []) /\
      (o = ORet (YErr None) -> all -> bodiless s k (rp_code x) = false -> X = R).
