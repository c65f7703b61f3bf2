(** * package body with Readers whose methods panic

    [Lang.run] lets every call on a Reader return.  Here the Reader may panic
    instead.  The program text is the same ([BodyModel]). *)
From Verif Require Export BodyModel.

(** The calls the package makes on a Reader. *)
Inductive xcall :=
| XRead (r : rid) (p : bytes)
| XReadAt (r : rid) (p : bytes) (off : Z)
| XSeek (r : rid) (off whence : Z)
| XClose (r : rid)
| XStat (r : rid).

Definition call_of {A} (a : act A) : option xcall :=
  match a with
  | CallRead r p => Some (XRead r p)
  | CallReadAt r p off => Some (XReadAt r p off)
  | CallSeek r off wh => Some (XSeek r off wh)
  | CallClose r => Some (XClose r)
  | CallStat r => Some (XStat r)
  | _ => None
  end.

(** Which calls panic, with what value and in which state they leave the world. *)
Definition hazard (W : Type) := W -> xcall -> option (W * panic).

Section XRun.
Context {W : Type} (E : env W) (P : hazard W) (fuel : nat).

Definition set_w (h : heap W) (w : W) : heap W :=
  {| h_b := h_b h; h_c := h_c h; h_w := w; h_log := h_log h |}.
Definition hits (h : heap W) {A} (a : act A) : option (W * panic) :=
  match call_of a with Some c => P (h_w h) c | None => None end.

(** A panic unwinds the method called by the program.  Nothing is left to do on
    the way but to unlock the mutexes: each one held during a call on a Reader is
    unlocked by [defer] (buffered.go:36,143,151,233, readerat.go:28,90,102,145,198,210,
    seeker.go:28,89,101,145,198,210), and unlocking changes nothing here.  The log
    lists the calls that have returned. *)
Fixpoint xrun {A} (h : heap W) (m : prog A) : heap W * out A :=
  match m with
  | Ret a => (h, ORet a)
  | Panic e => (h, OPanic e)
  | Spin => (h, OSpin)
  | Do a k =>
      match hits h a with
      | Some (w, e) => (set_w h w, OPanic e)
      | None =>
          match act_step E h a with
          | Some (h', x) => xrun h' (k x)
          | None => (h, OPanic PNil)
          end
      end
  end.

Definition xexec (h : heap W) (c : cmd) : heap W * out res := xrun h (cmd_prog fuel h c).

(** As [history]: the program recovers from panics and goes on. *)
Fixpoint xhistory (h : heap W) (cs : list cmd) : heap W * list (out res) :=
  match cs with
  | [] => (h, [])
  | c :: cs =>
      let '(h', o) := xexec h c in
      match o with
      | OSpin => (h', [OSpin])
      | _ => let '(h'', os) := xhistory h' cs in (h'', o :: os)
      end
  end.
End XRun.
