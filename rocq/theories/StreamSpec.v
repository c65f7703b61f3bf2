(** * Specification of streaming Bodies

    A plain Reader delivers a stream of bytes and at some time an error.  The
    handles of the family are cursors over this stream.  Everything here is said
    in terms of the calls made on the Reader and of what the program observes. *)
From stdpp Require Import gmap.
From Verif Require Export Spec.

(** The first error the Reader has reported, and the error its stream ends with
    if it has ended: a declared length [D] (negative: none) ends it too. *)
Definition ev_error (ev : event) : option error :=
  match ev with EvRead _ len n _ err => if (0 <=? n) && (n <=? len) then err else None | _ => None end.
Fixpoint first_error (log : list event) : option error :=
  match log with
  | [] => None
  | ev :: log => match ev_error ev with Some e => Some e | None => first_error log end
  end.
Definition terminal (D : Z) (log : list event) : option error :=
  match first_error log with
  | Some e => Some e
  | None => if (0 <=? D) && (zlen (stream log) =? D) then Some EOF else None
  end.

(** The handles of the family as the program sees them. *)
Definition is_some_err (err : option error) : bool := match err with Some _ => true | None => false end.
Definition follow (t : table) (c : cmd) (o : out res) : table :=
  match c, o with
  | Call i (Read _), ORet (RRead n _ err) =>
      match t !! i with Some (At pos _) => <[i := At (pos + Z.to_nat n) (is_some_err err)]> t | _ => t end
  | Call i Copy, ORet (RBody j None) => match t !! i with Some (At pos e) => <[j := At pos e]> t | _ => t end
  | Call i Close, ORet (RErr _) => match t !! i with Some (At _ _) => <[i := Shut]> t | _ => t end
  | _, _ => t
  end.
Fixpoint follows (t : table) (cs : list cmd) (os : list (out res)) : table :=
  match cs, os with
  | c :: cs, o :: os => follows (follow t c o) cs os
  | _, _ => t
  end.

(** A call on the handle at [pos] of a family whose Reader has delivered [d] and,
    if [e] is not None, ended with [e]. *)
Definition stream_answer (D : Z) (d : bytes) (e : option error) (r : rid) (pos : nat) (ended : bool) (f : op) (x : res) : Prop :=
  match f with
  | BytesRemaining =>
      x = RInt (match e with Some _ => zlen d - Z.of_nat pos | None => if D <? 0 then -1 else D - Z.of_nat pos end)
  | Read p =>
      let k := Nat.min (length p) (length d - pos) in
      exists err, x = RRead (Z.of_nat k) (filled d pos k p) err /\
        if ended || (length d <? pos + length p)%nat then is_Some err /\ err = e else err = None
  | Close => exists err, x = RErr err
  | Copy => exists j, x = RBody j None
  | Unwrap => x = RReader (Some r)
  | Seek _ _ | ReadAt _ _ | WriteTo _ => x = RNoMethod
  end.

(** How the Reader may be used: no calls but Stat, Read and Close; no Read after
    an error; no call at all after Close; no Read of nothing, and none beyond the
    declared length. *)
Definition polite_call (r : rid) (D : Z) (before : list event) (ev : event) : Prop :=
  Forall not_close before /\
  match ev with
  | EvRead r' len _ _ _ =>
      r' = r /\ first_error before = None /\ 0 < len /\ (0 <= D -> zlen (stream before) + len <= D)
  | EvClose _ _ | EvStat _ _ _ => True
  | _ => False
  end.
Definition polite (r : rid) (D : Z) (log : list event) : Prop :=
  forall before ev after, log = before ++ ev :: after -> polite_call r D before ev.

(** The calls [evs] a Read into [p] at [pos] makes on a Reader already called as
    in [log]: none if the bytes have been delivered before, and no buffer reaches
    a whole block (65536 bytes) beyond what was asked for. *)
Definition read_ahead (r : rid) (log evs : list event) (pos : nat) (p : bytes) : Prop :=
  forall before ev after, evs = before ++ ev :: after ->
  zlen (stream log) < Z.of_nat pos + zlen p /\
  exists len n got err, ev = EvRead r len n got err /\
    zlen (stream (log ++ before)) + len < Z.of_nat pos + zlen p + 65536.

(** The calls on the Reader made by one call on an open handle. *)
Definition calls_made (r : rid) (log evs : list event) (pos : nat) (ended : bool) (f : op) : Prop :=
  match f with
  | Read p => if ended then evs = [] else read_ahead r log evs pos p
  | Close => evs = [] \/ exists err, evs = [EvClose r err]
  | _ => evs = []
  end.

(** ** Whole programs *)

(** The program [cs], run from [h1] to [h2] with observations [os], goes on after
    a constructor has made the Body [i] of the Reader [r].  Nothing else is known
    about what the program did before, and it passes [r] to no other constructor. *)
Definition wrapped_once {W} (E : env W) (fuel : nat) (r : rid) (w : W) (h1 : heap W) (i : nat)
    (cs : list cmd) (h2 : heap W) (os : list (out res)) : Prop :=
  go_env E /\
  exists cs0 os0 h0 new,
    Forall go_cmd (cs0 ++ new :: cs) /\ Forall (fun c => ~ wraps r c) (cs0 ++ cs) /\ wraps r new /\
    history E fuel (initial w) cs0 = (h0, os0) /\
    exec E fuel h0 new = (h1, ORet (RBody i None)) /\
    history E fuel h1 cs = (h2, os) /\ feasible h2.

(** The new Body announces [D] bytes (-1: not known), and it is a streaming one
    (see C18). *)
Definition streaming {W} (E : env W) (fuel : nat) (r : rid) (h1 : heap W) (i : nat) (D : Z) : Prop :=
  exec E fuel h1 (Call i BytesRemaining) = (h1, ORet (RInt D)) /\
  (cp_readerat (ev_caps E r) || cp_seeker (ev_caps E r)) && (0 <=? D) = false.

(** The Reader has broken the rule 0 <= n <= len(p). *)
Definition lies (ev : event) : Prop := match ev with EvRead _ len n _ _ => ~ 0 <= n <= len | _ => False end.

(** Every observation made on a handle of the family satisfies [P]; [t] is
    the state of the handles before.  Copy gives a new handle.  Only Read panics,
    and only if [B]. *)
Fixpoint stream_trace (B : Prop) (P : nat -> bool -> op -> res -> Prop) (t : table) (cs : list cmd) (os : list (out res)) : Prop :=
  match cs, os with
  | c :: cs, o :: os =>
      match c with
      | Call i f =>
          match t !! i with
          | Some (At pos ended) =>
              match o with
              | ORet x => P pos ended f x /\ forall j err, f = Copy -> x = RBody j err -> t !! j = None
              | OPanic _ => B /\ exists p, f = Read p
              | OSpin => exists p, f = Read p
              end
          | Some Shut => o = ORet match f with Seek _ _ | ReadAt _ _ | WriteTo _ => RNoMethod | _ => closed_answer f end
          | None => True
          end
      | _ => True
      end /\ stream_trace B P (follow t c o) cs os
  | _, _ => True
  end.

(** As [stream_answer], for [d] and [e] as they are when the program has ended:
    only BytesRemaining depends on how far the stream has been fetched yet. *)
Definition final_answer (D : Z) (d : bytes) (e : option error) (r : rid) (pos : nat) (ended : bool) (f : op) (x : res) : Prop :=
  match f with
  | BytesRemaining =>
      e <> None /\ x = RInt (zlen d - Z.of_nat pos) \/
      ended = false /\ x = RInt (if D <? 0 then -1 else D - Z.of_nat pos)
  | _ => stream_answer D d e r pos ended f x
  end.

(** A Reader that streams [d] and ends with [e], in chunks of any size and
    whatever else happens; [gp] is its position, which calls on other Readers do
    not change.  Nothing is assumed about its ReadAt and Seek, if it has them. *)
Record streams {W} (E : env W) (r : rid) (gp : W -> nat) (d : bytes) (e : error) : Prop := {
  st_read : forall w p w' n q err, ev_read E w r p = (w', (n, q, err)) ->
    0 <= n <= zlen p /\ (gp w' = gp w + Z.to_nat n)%nat /\ (gp w' <= length d)%nat /\
    take (Z.to_nat n) q = take (Z.to_nat n) (drop (gp w) d) /\
    (err = None \/ err = Some e /\ gp w' = length d);
  st_read_other : forall w r' p, r' <> r -> gp (fst (ev_read E w r' p)) = gp w;
  st_readat : forall w r' p off, r' <> r -> gp (fst (ev_readat E w r' p off)) = gp w;
  st_seek : forall w r' off wh, r' <> r -> gp (fst (ev_seek E w r' off wh)) = gp w;
  st_close : forall w r', gp (fst (ev_close E w r')) = gp w;
  st_stat : forall w r', gp (fst (ev_stat E w r')) = gp w;
  st_write : forall w x p, gp (fst (ev_write E w x p)) = gp w
}.

(** The part of the stream served, and the error at its end.  If the declared
    length is just the length of the stream, the Reader's own error is seen if it
    comes along with the last bytes. *)
Definition cut (D : Z) (d : bytes) : bytes := if 0 <=? D then take (Z.to_nat D) d else d.
Definition end_error (D : Z) (d : bytes) (e e' : error) : Prop :=
  (D < 0 \/ zlen d <= D) /\ e' = e \/ 0 <= D <= zlen d /\ e' = EOF.
