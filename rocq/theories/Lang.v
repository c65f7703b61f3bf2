(** * The language the Body methods are written in

    A method is a program of atomic actions on a heap of Body objects plus
    calls into the outside world.  Mutexes are explicit actions.  The same
    program text is given a sequential meaning here ([run]) and an interleaved
    one in [Conc.v]. *)
From Verif Require Export GoBase.

(** Identity of an external Reader / Writer. *)
Definition rid := nat.
Definition wid := nat.
Bind Scope nat_scope with rid wid.

(** ** Heap objects *)

(** body/empty.go:9-13 (the mutex is represented by the lock actions). *)
Record emptyBody := { em_eof : bool; em_closed : bool }.

(** body/bytes.go:12-18 *)
Record bytesBody := { by_data : bytes; by_offset : Z; by_eof : bool; by_closed : bool }.

(** body/seeker.go:12-17; [s] is the Reader or nil. *)
Record seekerCommon := { sc_s : option rid; sc_length : Z; sc_refcnt : Z }.

(** body/seeker.go:68-74; [common] is a pointer into [h_c] or nil. *)
Record seekerBody := { sb_common : option nat; sb_err : option error; sb_offset : Z; sb_closed : bool }.

(** body/readerat.go:12-18; [r] and [at] are the same Reader seen through two
    interfaces, each can be nil. *)
Record readerAtCommon := { rc_r : option rid; rc_at : option rid; rc_length : Z; rc_refcnt : Z }.

(** body/readerat.go:64-70 *)
Record readerAtBody := { rb_common : option nat; rb_err : option error; rb_offset : Z; rb_closed : bool }.

(** body/buffered.go:13-22.  The map [bodies] is a duplicate-free list of
    handles or [None] for the nil map. *)
Record bufferedCommon := {
  bc_r : option rid; bc_err : option error; bc_bodies : option (list nat);
  bc_bytes : bytes; bc_length : Z; bc_start : Z; bc_refcnt : Z }.

(** body/buffered.go:105-111 *)
Record bufferedBody := { bb_common : option nat; bb_offset : Z; bb_eof : bool; bb_closed : bool }.

(** An object implementing Body, tagged by its dynamic type. *)
Inductive bobj :=
| BClosed                       (* *closedBody, closed.go:10 *)
| BEmpty (b : emptyBody)
| BBytes (b : bytesBody)
| BSeeker (b : seekerBody)
| BReaderAt (b : readerAtBody)
| BBuffered (b : bufferedBody).

(** An object shared by copies. *)
Inductive cobj :=
| CSeeker (c : seekerCommon)
| CReaderAt (c : readerAtCommon)
| CBuffered (c : bufferedCommon).

(** ** The outside world *)

(** Which interfaces a Reader's dynamic type implements (besides io.Reader).
    fs.File comprises Close. *)
Record caps := { cp_file : bool; cp_seeker : bool; cp_readerat : bool; cp_closer : bool }.
Definition is_closer (c : caps) : bool := cp_file c || cp_closer c.

(** External calls terminate and do not panic (except Write, whose callee may
    be another morehttp object).  [Read]/[ReadAt] get the caller's buffer and
    return (n, new contents of the buffer, err). *)
Record env (W : Type) := {
  ev_caps : rid -> caps;
  ev_read : W -> rid -> bytes -> W * (Z * bytes * option error);
  ev_readat : W -> rid -> bytes -> Z -> W * (Z * bytes * option error);
  ev_seek : W -> rid -> Z -> Z -> W * (Z * option error);
  ev_close : W -> rid -> W * option error;
  ev_stat : W -> rid -> W * (Z * option error);      (* size, err *)
  ev_write : W -> wid -> bytes -> W * (Z * option error + panic)
}.
Arguments ev_caps {W}. Arguments ev_read {W}. Arguments ev_readat {W}.
Arguments ev_seek {W}. Arguments ev_close {W}. Arguments ev_stat {W}.
Arguments ev_write {W}.

(** What an observer sitting between morehttp and the outside world sees. *)
Inductive event :=
| EvRead (r : rid) (len n : Z) (got : bytes) (err : option error)   (* [got]: the first [n] bytes of the buffer *)
| EvReadAt (r : rid) (len off n : Z) (err : option error)
| EvSeek (r : rid) (off whence n : Z) (err : option error)
| EvClose (r : rid) (err : option error)
| EvStat (r : rid) (size : Z) (err : option error)
| EvWrite (w : wid) (p : bytes) (res : Z * option error + panic).

(** ** Actions and programs *)
Inductive lock := MuB (i : nat) (* body.mu *) | MuC (c : nat) (* common.mu *).
Global Instance lock_eq_dec : EqDecision lock.
Proof. solve_decision. Defined.

Inductive act : Type -> Type :=
| Lock (l : lock) : act unit
| Unlock (l : lock) : act unit
| LoadB (i : nat) : act bobj
| StoreB (i : nat) (b : bobj) : act unit
| NewB (b : bobj) : act nat
| LoadC (c : nat) : act cobj
| StoreC (c : nat) (x : cobj) : act unit
| NewC (x : cobj) : act nat
| Caps (r : rid) : act caps
| CallRead (r : rid) (p : bytes) : act (Z * bytes * option error)
| CallReadAt (r : rid) (p : bytes) (off : Z) : act (Z * bytes * option error)
| CallSeek (r : rid) (off whence : Z) : act (Z * option error)
| CallClose (r : rid) : act (option error)
| CallStat (r : rid) : act (Z * option error)
| CallWrite (w : wid) (p : bytes) : act (Z * option error + panic).

Inductive prog (A : Type) : Type :=
| Ret (a : A)
| Panic (e : panic)
| Spin                         (* loop fuel exhausted: the call has not returned *)
| Do {X : Type} (a : act X) (k : X -> prog A).
Arguments Ret {A}. Arguments Panic {A}. Arguments Spin {A}. Arguments Do {A X}.

Fixpoint bind {A B} (m : prog A) (k : A -> prog B) : prog B :=
  match m with
  | Ret a => k a
  | Panic e => Panic e
  | Spin => Spin
  | Do a k' => Do a (fun x => bind (k' x) k)
  end.

(** [defer u; m]: [u] runs when [m] returns or panics. *)
Fixpoint deferred {A} (m : prog A) (u : act unit) : prog A :=
  match m with
  | Ret a => Do u (fun _ => Ret a)
  | Panic e => Do u (fun _ => Panic e)
  | Spin => Spin
  | Do a k => Do a (fun x => deferred (k x) u)
  end.

(** [l.Lock(); defer l.Unlock(); m] *)
Definition locked {A} (l : lock) (m : prog A) : prog A :=
  Do (Lock l) (fun _ => deferred m (Unlock l)).

Definition perform {A} (a : act A) : prog A := Do a Ret.

Notation "x <- m ;; k" := (bind m (fun x => k)) (at level 100, m at next level, right associativity).
Notation "' p <- m ;; k" := (bind m (fun x => match x with p => k end))
  (at level 100, p pattern, m at next level, right associativity).
Notation "m ;;; k" := (bind m (fun _ => k)) (at level 100, right associativity).

Definition of_option {A} (e : panic) (o : option A) : prog A :=
  match o with Some a => Ret a | None => Panic e end.
(** assert.Assert *)
Definition assert (b : bool) : prog unit := if b then Ret tt else Panic PAssert.

(** ** Sequential meaning *)
Inductive out (A : Type) := ORet (a : A) | OPanic (e : panic) | OSpin.
Arguments ORet {A}. Arguments OPanic {A}. Arguments OSpin {A}.

Section Run.
Context {W : Type} (E : env W).

Record heap := { h_b : list bobj; h_c : list cobj; h_w : W; h_log : list event }.

Definition set_b (h : heap) (b : list bobj) : heap :=
  {| h_b := b; h_c := h_c h; h_w := h_w h; h_log := h_log h |}.
Definition set_c (h : heap) (c : list cobj) : heap :=
  {| h_b := h_b h; h_c := c; h_w := h_w h; h_log := h_log h |}.
Definition emit (h : heap) (w : W) (ev : event) : heap :=
  {| h_b := h_b h; h_c := h_c h; h_w := w; h_log := h_log h ++ [ev] |}.

(** A callee can change the contents of the buffer it is given, not its length. *)
Definition fit (p q : bytes) : bytes := take (length p) (q ++ drop (length q) p).

(** One atomic action; [None] is a nil/dangling pointer dereference. *)
Definition act_step {A} (h : heap) (a : act A) : option (heap * A) :=
  match a in act X return option (heap * X) with
  | Lock _ => Some (h, tt)
  | Unlock _ => Some (h, tt)
  | LoadB i => match h_b h !! i with Some b => Some (h, b) | None => None end
  | StoreB i b => match h_b h !! i with Some _ => Some (set_b h (<[i := b]> (h_b h)), tt) | None => None end
  | NewB b => Some (set_b h (h_b h ++ [b]), length (h_b h))
  | LoadC c => match h_c h !! c with Some x => Some (h, x) | None => None end
  | StoreC c x => match h_c h !! c with Some _ => Some (set_c h (<[c := x]> (h_c h)), tt) | None => None end
  | NewC x => Some (set_c h (h_c h ++ [x]), length (h_c h))
  | Caps r => Some (h, ev_caps E r)
  | CallRead r p =>
      let '(w, (n, q, err)) := ev_read E (h_w h) r p in
      Some (emit h w (EvRead r (zlen p) n (take (Z.to_nat n) (fit p q)) err), (n, fit p q, err))
  | CallReadAt r p off =>
      let '(w, (n, q, err)) := ev_readat E (h_w h) r p off in
      Some (emit h w (EvReadAt r (zlen p) off n err), (n, fit p q, err))
  | CallSeek r off wh =>
      let '(w, (n, err)) := ev_seek E (h_w h) r off wh in
      Some (emit h w (EvSeek r off wh n err), (n, err))
  | CallClose r =>
      let '(w, err) := ev_close E (h_w h) r in
      Some (emit h w (EvClose r err), err)
  | CallStat r =>
      let '(w, (n, err)) := ev_stat E (h_w h) r in
      Some (emit h w (EvStat r n err), (n, err))
  | CallWrite w p =>
      let '(w', x) := ev_write E (h_w h) w p in
      Some (emit h w' (EvWrite w p x), x)
  end.

(** Sequential execution.  Locks are no-ops here: that a call never waits for
    a lock it already holds is part of the deadlock theorem in [Conc.v]. *)
Fixpoint run {A} (h : heap) (m : prog A) : heap * out A :=
  match m with
  | Ret a => (h, ORet a)
  | Panic e => (h, OPanic e)
  | Spin => (h, OSpin)
  | Do a k =>
      match act_step h a with
      | Some (h', x) => run h' (k x)
      | None => (h, OPanic PNil)
      end
  end.

End Run.
Arguments heap : clear implicits.
Arguments h_b {W}. Arguments h_c {W}. Arguments h_w {W}. Arguments h_log {W}.
