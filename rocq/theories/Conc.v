(** * Goroutines: the interleaved meaning of the methods

    Any number of goroutines make calls, one at a time each.  A call runs the same
    program as in the sequential model (BodyModel.v); here its actions interleave
    with those of the others and a mutex held by another goroutine blocks.

    Simplifications: memory is sequentially consistent, an action loads or stores
    a whole object, and a call into a Reader or Writer is one action.  An
    allocation happens together with the next action of its goroutine, because
    nobody else knows the new object before that action. *)
From stdpp Require Export functions.
From Verif Require Export BodyModel.

(** Identity of a goroutine. *)
Definition tid := nat.
Bind Scope nat_scope with tid.

(** What a goroutine is doing: nothing, or the rest of a call. *)
Inductive tstate := Idle | Busy (c : cmd) (m : prog res).

(** What an observer of the calls sees. *)
Inductive cev := Inv (t : tid) (c : cmd) | Fin (t : tid) (o : out res).

Section Conc.
Context {W : Type} (E : env W) (fuel : nat).

(** The heap, who holds which mutex, the goroutines, and the handles that calls
    have returned so far. *)
Record conf := Conf { cf_h : heap W; cf_l : lock -> option tid; cf_t : tid -> tstate; cf_k : list nat }.

(** The allocations a program begins with. *)
Definition alloc_step {A} (h : heap W) (a : act A) : option (heap W * A) :=
  match a in act X return option (heap W * X) with
  | NewB b => act_step E h (NewB b)
  | NewC x => act_step E h (NewC x)
  | _ => None
  end.
Fixpoint allocs {A} (h : heap W) (m : prog A) : heap W * prog A :=
  match m with
  | Do a k => match alloc_step h a with Some (h', x) => allocs h' (k x) | None => (h, m) end
  | _ => (h, m)
  end.

(** sync.Mutex: Lock waits until nobody holds it. *)
Definition lock_step {A} (L : lock -> option tid) (t : tid) (a : act A) : option (lock -> option tid) :=
  match a with
  | Lock l => match L l with None => Some (<[l := Some t]> L) | Some _ => None end
  | Unlock l => if decide (L l = Some t) then Some (<[l := None]> L) else None
  | _ => Some L
  end.

Definition outcome {A} (m : prog A) : option (out A) :=
  match m with Ret a => Some (ORet a) | Panic e => Some (OPanic e) | _ => None end.

(** The handles a command uses and the handles an outcome tells. *)
Definition uses (c : cmd) : list nat := match c with Call i _ => [i] | NewReaderBody b => [b] | _ => [] end.
Definition gives (o : out res) : list nat := match o with ORet (RBody b _) => [b] | _ => [] end.

Inductive cstep (cf : conf) : option cev -> conf -> Prop :=
| cs_call t c : cf_t cf t = Idle -> Forall (fun i => i ∈ cf_k cf) (uses c) ->
    cstep cf (Some (Inv t c)) (Conf (cf_h cf) (cf_l cf) (<[t := Busy c (cmd_prog fuel (cf_h cf) c)]> (cf_t cf)) (cf_k cf))
| cs_act t c m h1 X (a : act X) k L h2 x : cf_t cf t = Busy c m -> allocs (cf_h cf) m = (h1, Do a k) ->
    lock_step (cf_l cf) t a = Some L -> act_step E h1 a = Some (h2, x) ->
    cstep cf None (Conf h2 L (<[t := Busy c (k x)]> (cf_t cf)) (cf_k cf))
| cs_fin t c m h1 m1 o : cf_t cf t = Busy c m -> allocs (cf_h cf) m = (h1, m1) -> outcome m1 = Some o ->
    cstep cf (Some (Fin t o)) (Conf h1 (cf_l cf) (<[t := Idle]> (cf_t cf)) (gives o ++ cf_k cf)).

(** An execution and the calls observed. *)
Inductive csteps (cf : conf) : list cev -> conf -> Prop :=
| css_nil : csteps cf [] cf
| css_snoc evs cf1 e cf2 : csteps cf evs cf1 -> cstep cf1 e cf2 -> csteps cf (evs ++ match e with Some e => [e] | None => [] end) cf2.

(** A program that has not done anything yet. *)
Definition start (w : W) : conf := Conf (initial w) (fun _ => None) (fun _ => Idle) [closedSingleton].

(** ** A scheduler, for examples *)
Definition do_call (t : tid) (c : cmd) (cf : conf) : option (option cev * conf) :=
  match cf_t cf t with
  | Idle => if decide (Forall (fun i => i ∈ cf_k cf) (uses c))
            then Some (Some (Inv t c), Conf (cf_h cf) (cf_l cf) (<[t := Busy c (cmd_prog fuel (cf_h cf) c)]> (cf_t cf)) (cf_k cf))
            else None
  | Busy _ _ => None
  end.
Definition do_step (t : tid) (cf : conf) : option (option cev * conf) :=
  match cf_t cf t with
  | Idle => None
  | Busy c m =>
      let '(h1, m1) := allocs (cf_h cf) m in
      match m1 with
      | Do a k =>
          match lock_step (cf_l cf) t a, act_step E h1 a with
          | Some L, Some (h2, x) => Some (None, Conf h2 L (<[t := Busy c (k x)]> (cf_t cf)) (cf_k cf))
          | _, _ => None
          end
      | _ =>
          match outcome m1 with
          | Some o => Some (Some (Fin t o), Conf h1 (cf_l cf) (<[t := Idle]> (cf_t cf)) (gives o ++ cf_k cf))
          | None => None
          end
      end
  end.
(** [Begin t c]: goroutine [t] calls [c]; [Go t n]: it makes up to [n] steps. *)
Inductive choice := Begin (t : tid) (c : cmd) | Go (t : tid) (n : nat).
Definition then_ (e : option cev) (r : list cev * conf) : list cev * conf := (match e with Some e => [e] | None => [] end ++ fst r, snd r).
Fixpoint do_steps (n : nat) (t : tid) (cf : conf) : list cev * conf :=
  match n with
  | O => ([], cf)
  | S n => match do_step t cf with
           | Some (e, cf') => then_ e (do_steps n t cf')
           | None => ([], cf)
           end
  end.
Fixpoint schedule (s : list choice) (cf : conf) : list cev * conf :=
  match s with
  | [] => ([], cf)
  | Begin t c :: s => match do_call t c cf with Some (e, cf') => then_ e (schedule s cf') | None => schedule s cf end
  | Go t n :: s => let r := do_steps n t cf in let r' := schedule s (snd r) in (fst r ++ fst r', snd r')
  end.
End Conc.
Arguments conf : clear implicits.
Arguments Conf {W}. Arguments cf_h {W}. Arguments cf_l {W}. Arguments cf_t {W}. Arguments cf_k {W}.
Arguments start {W}.
