(** * Specification of a Body of a Body *)
From stdpp Require Import gmap.
From Verif Require Export NestModel SeekSpec SourceSpec StreamSpec.

(** The upper layer starts with the lower Body in the heap [h]. *)
Definition upper {W} (h : heap W) : nworld W := {| n_low := h; n_bad := false |}.

(** In the heap [h], [i] is a Body made from the bytes [d] some time ago and not yet
    closed.  [b] is its object. *)
Definition memory_below {W} (E : env W) (fuel : nat) (h : heap W) (i : nat) (b : bobj) (d : bytes) : Prop :=
  exists h0 c h1 cs os,
    (c = NewBytes d \/ (exists s, c = NewString s /\ String.list_ascii_of_string s = d) \/ (c = NewEmpty /\ d = [])) /\
    go_cmd c /\ exec E fuel h0 c = (h1, ORet (RBody i None)) /\
    Forall go_cmd cs /\ history E fuel h1 cs = (h, os) /\
    h_b h !! i = Some b /\ open_seekable b = true.

(** [i] is a Body made from the Reader [r] some time ago and not yet closed.  [r]
    serves [d] through ReadAt or Seek and Read, and [i] announced [D] bytes.  [cs] is
    what the program has done with [i] and its copies, and with anything else. *)
Definition reader_below {W} (E : env W) (fuel : nat) (h : heap W) (i : nat) (b : bobj)
    (r : rid) (d : bytes) (early : bool) (D : Z) (cs : list cmd) (os : list (out res)) : Prop :=
  exists live w h1,
    (serves_at E r live d early /\ cp_readerat (ev_caps E r) = true \/
     serves_seek E r live d early /\ cp_readerat (ev_caps E r) = false /\ cp_seeker (ev_caps E r) = true) /\
    live w /\ wrapped_once E fuel r w h1 i cs h os /\ announces E fuel h1 i D /\ 0 <= D <= zlen d /\
    h_b h !! i = Some b /\ open_seekable b = true.

(** For the upper layer the lower Body is a Reader whose ReadAt serves [d] (see C02),
    and no call on it panics or fails to return. *)
Definition source_below {W} (E : env W) (fuel : nat) (h : heap W) (i : nat) (b : bobj) (g : rid -> rid) (d : bytes) (early : bool) : Prop :=
  cp_readerat (ev_caps (nest E fuel i b g) 0) = true /\
  exists live, serves_at (nest E fuel i b g) 0 live d early /\ live (upper h) /\ forall x, live x -> n_bad x = false.

(** One or the other, with the bytes it serves. *)
Definition seekable_below {W} (E : env W) (fuel : nat) (h : heap W) (i : nat) (b : bobj) (g : rid -> rid) (d : bytes) (early : bool) : Prop :=
  memory_below E fuel h i b d /\ early = false \/
  exists r d0 D cs os, reader_below E fuel h i b r d0 early D cs os /\ (forall n, g n <> r) /\ d = take (Z.to_nat D) d0.

(** ** Streams *)

(** Nothing has happened to the stream. *)
Definition quiet {W} (live : W -> Prop) (gp : W -> nat) (w w' : W) : Prop := live w' /\ gp w' = gp w.

(** As [streams] of [StreamSpec], for as long as [live] holds: the Reader delivers
    [d] and then reports [e].  Moreover it makes progress. *)
Record streams_while {W} (E : env W) (r : rid) (live : W -> Prop) (gp : W -> nat) (d : bytes) (e : error) : Prop := {
  sw_read : forall w p w' n q err, live w -> ev_read E w r p = (w', (n, q, err)) ->
    live w' /\ 0 <= n <= zlen p /\ (gp w' = gp w + Z.to_nat n)%nat /\ (gp w' <= length d)%nat /\
    take (Z.to_nat n) q = take (Z.to_nat n) (drop (gp w) d) /\
    (err = None /\ (n = 0 -> p = []) \/ err = Some e /\ gp w' = length d);
  sw_read_other : forall w r' p, r' <> r -> live w -> quiet live gp w (fst (ev_read E w r' p));
  sw_readat : forall w r' p off, r' <> r -> live w -> quiet live gp w (fst (ev_readat E w r' p off));
  sw_seek : forall w r' off wh, r' <> r -> live w -> quiet live gp w (fst (ev_seek E w r' off wh));
  sw_close : forall w r', r' <> r -> live w -> quiet live gp w (fst (ev_close E w r'));
  sw_stat : forall w r', live w -> quiet live gp w (fst (ev_stat E w r'));
  sw_write : forall w x p, live w -> quiet live gp w (fst (ev_write E w x p))
}.

(** [i] is a streaming Body made from the Reader [r] some time ago and not yet closed.
    [r] streams [d] and then reports [e]; [i] announced [D] bytes, and stands at
    [pos].  [cs] is what the program has done with [i] and its copies, and with
    anything else. *)
Definition stream_below {W} (E : env W) (fuel : nat) (h : heap W) (i : nat) (b : bobj)
    (r : rid) (d : bytes) (e : error) (D : Z) (pos : nat) (cs : list cmd) (os : list (out res)) : Prop :=
  exists live gp w h1 ended,
    streams_while E r live gp d e /\ live w /\ gp w = 0%nat /\
    wrapped_once E fuel r w h1 i cs h os /\ streaming E fuel r h1 i D /\
    follows {[ i := At 0 false ]} cs os !! i = Some (At pos ended) /\ h_b h !! i = Some b /\
    (length d < fuel)%nat /\ total_read (h_log h) + zlen d <= 2 ^ 62.

(** What the lower Body still has to deliver, and the error at its end. *)
Definition streaming_below {W} (E : env W) (fuel : nat) (h : heap W) (i : nat) (b : bobj) (g : rid -> rid) (d : bytes) (e : error) : Prop :=
  exists r d0 e0 D pos cs os, stream_below E fuel h i b r d0 e0 D pos cs os /\ (forall n, g n <> r) /\
    d = drop pos (cut D d0) /\ forall x, end_error D d0 e0 x -> x = e.

(** For the upper layer the lower Body is a Reader, with none of the other methods but
    Close, that streams [d] and then reports [e]; no call on it panics or fails to
    return. *)
Definition stream_source {W} (E : env W) (fuel : nat) (h : heap W) (i : nat) (b : bobj) (g : rid -> rid) (d : bytes) (e : error) : Prop :=
  ev_caps (nest E fuel i b g) 0 = {| cp_file := false; cp_seeker := false; cp_readerat := false; cp_closer := true |} /\
  exists live gp, streams_while (nest E fuel i b g) 0 live gp d e /\ live (upper h) /\ gp (upper h) = 0%nat /\ forall x, live x -> n_bad x = false.
