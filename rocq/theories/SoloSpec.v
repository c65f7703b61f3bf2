(** * What one goroutine sees *)
From stdpp Require Import gmap.
From Verif Require Export CopySpec.
From Verif Require Export ConcSpec.

(** The calls goroutine [t] has made and their outcomes, in order, and the call it
    is in the middle of. *)
Definition sees (t : tid) (x : list (cmd * out res) * option cmd) (e : cev) : list (cmd * out res) * option cmd :=
  match e with
  | Inv t' c => if decide (t' = t) then (fst x, Some c) else x
  | Fin t' o => if decide (t' = t) then (match snd x with Some c => fst x ++ [(c, o)] | None => fst x end, None) else x
  end.
Definition calls_of (t : tid) (evs : list cev) : list (cmd * out res) := fst (fold_left (sees t) evs ([], None)).

(** What goroutine [t] does with the handle [j], and what it gets. *)
Definition ops_by (t : tid) (j : nat) (evs : list cev) : list op := ops_on j (map fst (calls_of t evs)).
Definition seen_by (t : tid) (j : nat) (evs : list cev) : list (out res) := seen j (map fst (calls_of t evs)) (map snd (calls_of t evs)).

(** No other goroutine than [t] calls methods of [j]. *)
Definition owns (t : tid) (j : nat) (evs : list cev) : Prop := forall t' f, Inv t' (Call j f) ∈ evs -> t' = t.
(** The arguments are well typed. *)
Definition go_calls (evs : list cev) : Prop := forall t c, Inv t c ∈ evs -> go_cmd c.

(** In the state [cf0], which a program has reached, no call is under way; from then
    on goroutines call methods of the Bodies [ks], which are copies of one, and of
    copies they make.  All calls have ended in [cf], [evs] are the calls. *)
Definition goroutines {W} (E : env W) (fuel : nat) (cf0 : conf W) (ks : list nat) (evs : list cev) (cf : conf W) : Prop :=
  (exists w evs0, csteps E fuel (start w) evs0 cf0) /\ (forall t, cf_t cf0 t = Idle) /\
  closedSingleton ∈ ks /\ (forall i, i ∈ ks -> i ∈ cf_k cf0) /\ copies (cf_h cf0) ks /\
  csteps E fuel (Conf (cf_h cf0) (cf_l cf0) (cf_t cf0) ks) evs cf /\ only_calls evs /\ go_calls evs /\ (forall t, cf_t cf t = Idle).
