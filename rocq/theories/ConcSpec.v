(** * What it means for concurrent calls to be linearizable *)
From Verif Require Export Conc.

(** A linearization of the observed calls: each call takes effect at one instant
    between its beginning and its end, marked by [At t]. *)
Inductive lev := Begins (t : tid) (c : cmd) | At (t : tid) | Ends (t : tid) (o : out res).
Inductive lstate := LIdle | LCalled (c : cmd) | LDone (o : out res).

(** The calls without the marks. *)
Fixpoint observed (l : list lev) : list cev :=
  match l with
  | [] => []
  | Begins t c :: l => Inv t c :: observed l
  | At _ :: l => observed l
  | Ends t o :: l => Fin t o :: observed l
  end.

Section Lin.
Context {W : Type} (E : env W) (fuel : nat).

(** The calls executed one after the other by the sequential model, in the order
    of their marks, end with exactly the outcomes observed.  A goroutine makes one
    call at a time. *)
Inductive explains : heap W -> (tid -> lstate) -> list lev -> heap W -> (tid -> lstate) -> Prop :=
| ex_nil h s : explains h s [] h s
| ex_begins h0 s0 l h s t c : explains h0 s0 l h s -> s t = LIdle ->
    explains h0 s0 (l ++ [Begins t c]) h (<[t := LCalled c]> s)
| ex_at h0 s0 l h s t c h' o : explains h0 s0 l h s -> s t = LCalled c -> exec E fuel h c = (h', o) -> o <> OSpin ->
    explains h0 s0 (l ++ [At t]) h' (<[t := LDone o]> s)
| ex_ends h0 s0 l h s t o : explains h0 s0 l h s -> s t = LDone o ->
    explains h0 s0 (l ++ [Ends t o]) h (<[t := LIdle]> s).

Definition linearizable (h : heap W) (evs : list cev) : Prop :=
  exists l h' s', observed l = evs /\ explains h (fun _ => LIdle) l h' s'.

(** ** Other notions *)

(** Goroutine [t] is about to do [a], or waiting to do it. *)
Definition at_act (cf : conf W) (t : tid) {X} (a : act X) : Prop :=
  exists c m h1 k, cf_t cf t = Busy c m /\ allocs E (cf_h cf) m = (h1, Do a k).
(** Goroutine [t] is in a loop that its Reader has not ended in [fuel] rounds. *)
Definition spinning (cf : conf W) (t : tid) : Prop :=
  exists c m h1, cf_t cf t = Busy c m /\ allocs E (cf_h cf) m = (h1, Spin).
(** Goroutine [t] is calling into Reader [r]. *)
Definition reader_called {X} (a : act X) : option rid :=
  match a with
  | CallRead r _ | CallReadAt r _ _ | CallSeek r _ _ | CallClose r | CallStat r => Some r
  | _ => None
  end.
Definition calling (cf : conf W) (t : tid) (r : rid) : Prop :=
  exists X (a : act X), at_act cf t a /\ reader_called a = Some r.
End Lin.

(** No call begins. *)
Definition quiet (evs : list cev) : Prop := forall t c, Inv t c ∉ evs.
(** The Readers given to the constructors. *)
Definition made (evs : list cev) : list rid :=
  flat_map (fun e => match e with Inv _ (NewReader r) | Inv _ (NewReaderLen r _) => [r] | _ => [] end) evs.
(** Accesses to the fields of a Body or of an object shared by copies. *)
Definition reads_body {X} (a : act X) : option nat := match a with LoadB i => Some i | _ => None end.
Definition writes_body {X} (a : act X) : option nat := match a with StoreB i _ => Some i | _ => None end.
Definition reads_shared {X} (a : act X) : option nat := match a with LoadC c => Some c | _ => None end.
Definition writes_shared {X} (a : act X) : option nat := match a with StoreC c _ => Some c | _ => None end.

(** The handles of [ks] are copies of one Body, open or closed. *)
Definition copies {W} (h : heap W) (ks : list nat) : Prop :=
  exists c, forall i, i ∈ ks -> exists b, h_b h !! i = Some b /\
    match b with
    | BClosed => True
    | BEmpty _ | BBytes _ => c = None
    | BSeeker b => exists c0, c = Some c0 /\ (sb_common b = None \/ sb_common b = c)
    | BReaderAt b => exists c0, c = Some c0 /\ (rb_common b = None \/ rb_common b = c)
    | BBuffered b => exists c0, c = Some c0 /\ (bb_common b = None \/ bb_common b = c)
    end.
(** Only methods are called. *)
Definition only_calls (evs : list cev) : Prop := forall t c, Inv t c ∈ evs -> exists i f, c = Call i f.
