(** * Notions for the properties of handler.Adaptor (C40, C41) *)
From stdpp Require Import gmap.
From Verif Require Export ServeSpec.

(** How an inner Handler and the Serve after it end: all is well, a panic (Serve's
    error is turned into one), or panic(nil). *)
Inductive ending := Fine | Panicked (e : panic) | PanickedNil.

(** The inner Handler, and then Serve on the Writer [k], as a program of its own. *)
Inductive handled {V} (U : uenv V) (fuel : nat) (k : wid) : handler -> state V -> state V -> ending -> Prop :=
| hd_do c f o s s1 s2 x :
    texec U fuel (TDo c) s = (s1, o) -> o <> OSpin -> handled U fuel k (f o) s1 s2 x -> handled U fuel k (HDo c f) s s2 x
| hd_panic e s : handled U fuel k (HPanic (Some e)) s s (Panicked e)
| hd_panic_nil s : handled U fuel k (HPanic None) s s PanickedNil
| hd_serve r s s' e :
    texec U fuel (TDo (RServe r k)) s = (s', ORet (YErr e)) ->
    handled U fuel k (HReturn (Some r)) s s' (match e with None => Fine | Some e => Panicked (PError e) end)
| hd_serve_panics r s s' e :
    texec U fuel (TDo (RServe r k)) s = (s', OPanic e) -> handled U fuel k (HReturn (Some r)) s s' (Panicked e)
(* the zero Response: Serve gets as far as WriteHeader(0), which panics *)
| hd_zero s s' e :
    texec U fuel (TDo (RWriter k (WWriteHeader 0))) s = (s', OPanic e) -> handled U fuel k (HReturn None) s s' (Panicked e).

(** A request for which ServeHTTP terminates: [s] before, [s1] after NewWriter has
    returned [k'], [s2] when the deferred function is entered, [s'] at the end. *)
Definition request {V} (U : uenv V) (fuel : nat) (inner : handler) (k : wid) (isHEAD : bool)
    (s s1 : state V) (k' : wid) (s2 : state V) (x : ending) (s' : state V) (o : out reply) : Prop :=
  texec U fuel (TServe inner (Some k) isHEAD) s = (s', o) /\ o <> OSpin /\
  texec U fuel (TDo (RNewWriter (Some k) isHEAD)) s = (s1, ORet (YHandle (Some k'))) /\
  handled U fuel k' inner s1 s2 x.

(** The statuses among some events, and to whom they were sent. *)
Definition statuses_in (l : list uev) : list (uid * Z) := omap (fun e => match e with UHeader _ u st _ => Some (u, st) | _ => None end) l.
(** Counters. *)
Definition requests_in (l : list metric) : list string := omap (fun m => match m with MRequests c => Some c | _ => None end) l.
Definition panics_in (l : list metric) : nat := length (omap (fun m => match m with MPanics => Some tt | _ => None end) l).
Definition onpanics_in (l : list metric) : list panic := omap (fun m => match m with MOnPanic _ e => Some e | _ => None end) l.
(** All labels in use. *)
Definition labels_in (l : list metric) : list string :=
  omap (fun m => match m with MRequests c | MLatency c | MRecvBytes c _ | MSendBytes c _ => Some c | _ => None end) l.
