(** * A Body of a Body

    FromReaderAndLength takes any io.Reader, another Body among them
    (body.go:291-351; FromReader instead returns the Body it is given,
    body.go:280-282, [NewReaderBody] in [BodyModel]).  The Body that is made calls
    the methods of the other one.

    The lower Body lives in a heap of its own.  For the upper layer that heap is the
    outside world, and the lower Body is the Reader 0 in it.  Two Bodies share no
    memory, and the upper one knows of the lower one only what io.Reader,
    io.ReaderAt, io.Seeker and io.Closer show. *)
From Verif Require Export BodyModel.

(** What the type assertions of body.go:298-300 (and the ones on io.Closer in
    readerat.go, seeker.go and buffered.go) find out about a Body: none is an
    fs.File, for want of Stat; all have Close (body.go:34-93); all but bufferedBody
    have Seek and ReadAt (bytes.go:76,112, closed.go:24,28, empty.go:47,76,
    readerat.go:159,196, seeker.go:159,196). *)
Definition body_caps (b : bobj) : caps :=
  let s := match b with BBuffered _ => false | _ => true end in
  {| cp_file := false; cp_seeker := s; cp_readerat := s; cp_closer := true |}.

Section Nest.
Context {W : Type} (E : env W) (fuel : nat).
(** The lower Body and what it is made of. *)
Context (i : nat) (b : bobj).
(** The other Readers of the upper layer, as Readers of [E]. *)
Context (g : rid -> rid).

(** The lower heap, and whether a call on the lower Body has panicked or failed to
    return.  What the upper layer would do then is not modelled: [bad] stays true,
    and the theorems show it false. *)
Record nworld := { n_low : heap W; n_bad : bool }.

Definition out_world (x : nworld) (w : W) : nworld :=
  {| n_low := {| h_b := h_b (n_low x); h_c := h_c (n_low x); h_w := w; h_log := h_log (n_low x) |}; n_bad := n_bad x |}.

(** A call on the lower Body. *)
Definition low {A} (x : nworld) (f : op) (ok : res -> option A) (dummy : A) : nworld * A :=
  let '(h, o) := exec E fuel (n_low x) (Call i f) in
  match o with
  | ORet y => match ok y with
              | Some a => ({| n_low := h; n_bad := n_bad x |}, a)
              | None => ({| n_low := h; n_bad := true |}, dummy)
              end
  | _ => ({| n_low := h; n_bad := true |}, dummy)
  end.

(** Offsets are int64, and slices have less than 2^61 bytes: [wrap64] and [clip] only
    matter for numbers Go has no name for and for buffers it cannot make. *)
Definition clip (p : bytes) : bytes := if zlen p <=? 2 ^ 61 then p else take (Z.to_nat (2 ^ 61)) p.
Definition nest : env nworld := {|
  ev_caps r := match r with O => body_caps b | S _ => ev_caps E (g r) end;
  ev_read x r p :=
    match r with
    | O => low x (Read (clip p)) (fun y => match y with RRead n q e => Some (n, q, e) | _ => None end) (0, p, None)
    | S _ => let '(w, a) := ev_read E (h_w (n_low x)) (g r) p in (out_world x w, a)
    end;
  ev_readat x r p off :=
    match r with
    | O => low x (ReadAt p off) (fun y => match y with RRead n q e => Some (n, q, e) | _ => None end) (0, p, None)
    | S _ => let '(w, a) := ev_readat E (h_w (n_low x)) (g r) p off in (out_world x w, a)
    end;
  ev_seek x r off wh :=
    match r with
    | O => low x (Seek (wrap64 off) wh) (fun y => match y with RSeek n e => Some (wrap64 n, e) | _ => None end) (0, None)
    | S _ => let '(w, a) := ev_seek E (h_w (n_low x)) (g r) off wh in (out_world x w, a)
    end;
  ev_close x r :=
    match r with
    | O => low x Close (fun y => match y with RErr e => Some e | _ => None end) None
    | S _ => let '(w, a) := ev_close E (h_w (n_low x)) (g r) in (out_world x w, a)
    end;
  ev_stat x r :=
    match r with
    | O => (x, (0, None))
    | S _ => let '(w, a) := ev_stat E (h_w (n_low x)) (g r) in (out_world x w, a)
    end;
  ev_write x u p := let '(w, a) := ev_write E (h_w (n_low x)) u p in (out_world x w, a)
|}.
End Nest.
Arguments nworld : clear implicits.
Arguments n_low {W}. Arguments n_bad {W}. Arguments out_world {W}.
