(** * C42: Concurrent use is linearizable *)
From Verif Require Import ConcSpec ConcWitness.
From Verif Require LinMain.

(** Take any state that a program can reach in which no call is under way, and any
    handles it knows that are copies of one Body.  From then on any number of
    goroutines call any methods on these Bodies and on the copies they make, in any
    interleaving.  Then there is an instant within each call such that the calls,
    executed one after the other in the order of these instants, have exactly the
    outcomes observed.  When all calls have ended, the sequential execution has also
    left the same state. *)
Theorem C42_linearizable : forall (W : Type) (E : env W) (fuel : nat), forall w evs0 cf0 ks evs cf,
  csteps E fuel (start w) evs0 cf0 -> (forall t, cf_t cf0 t = Idle) ->
  closedSingleton ∈ ks -> (forall i, i ∈ ks -> i ∈ cf_k cf0) -> copies (cf_h cf0) ks ->
  csteps E fuel (Conf (cf_h cf0) (cf_l cf0) (cf_t cf0) ks) evs cf -> only_calls evs ->
  exists l h' s', observed l = evs /\ explains E fuel (cf_h cf0) (fun _ => LIdle) l h' s' /\
    ((forall t, cf_t cf t = Idle) -> cf_h cf = h').
Proof. exact @LinMain.linearized. Qed.
Print Assumptions C42_linearizable.

(** In particular for one Body, whatever it is, and all copies made of it. *)
Theorem C42_one_body : forall (W : Type) (E : env W) (fuel : nat), forall w evs0 cf0 i evs cf,
  csteps E fuel (start w) evs0 cf0 -> (forall t, cf_t cf0 t = Idle) -> i ∈ cf_k cf0 ->
  csteps E fuel (Conf (cf_h cf0) (cf_l cf0) (cf_t cf0) [closedSingleton; i]) evs cf -> only_calls evs ->
  linearizable E fuel (cf_h cf0) evs.
Proof. exact @LinMain.linearizable_one. Qed.
Print Assumptions C42_one_body.

(** ** Example *)

(** A Body of a seekable source (handle 1) and a copy (handle 2).  Goroutine 1 reads
    from the Body, goroutine 2 reads from the copy, goroutine 3 closes the Body,
    goroutine 4 copies the copy and goroutine 5 reads from the Body too.  Goroutine
    2 is between two actions of goroutine 1, goroutines 3 and 5 wait for it. *)
Definition prep := two_copies (NewReader 0%nat).
Definition calm := schedule (demo [hello seekable 4]) 9 prep (start [0%nat]).
Definition together := [Begin 1%nat (Call 1%nat (Read (buf 3))); Go 1%nat 2; Begin 2%nat (Call 2%nat (Read (buf 3))); Go 2%nat 50;
  Begin 3%nat (Call 1%nat Close); Begin 5%nat (Call 1%nat (Read (buf 3))); Go 3%nat 1; Go 5%nat 1; Go 1%nat 3; Begin 4%nat (Call 2%nat Copy); Go 4%nat 2; Go 1%nat 50; Go 5%nat 50; Go 3%nat 50; Go 4%nat 50].
Definition from := Conf (cf_h calm.2) (cf_l calm.2) (cf_t calm.2) [0; 1; 2]%nat.
Definition run := schedule (demo [hello seekable 4]) 9 together from.
Example C42_example :
  csteps (demo [hello seekable 4]) 9 (start [0%nat]) calm.1 calm.2 /\ (forall t, cf_t calm.2 t = Idle) /\
  closedSingleton ∈ [0; 1; 2]%nat /\ cf_k calm.2 = [2; 1; 0]%nat /\ copies (cf_h calm.2) [0; 1; 2]%nat /\
  csteps (demo [hello seekable 4]) 9 from run.1 run.2 /\ only_calls run.1 /\
  run.1 = [Inv 1%nat (Call 1%nat (Read (buf 3))); Inv 2%nat (Call 2%nat (Read (buf 3))); Fin 2%nat (ORet (RRead 3 (bs "hel") None));
    Inv 3%nat (Call 1%nat Close); Inv 5%nat (Call 1%nat (Read (buf 3))); Inv 4%nat (Call 2%nat Copy); Fin 1%nat (ORet (RRead 3 (bs "hel") None));
    Fin 5%nat (ORet (RRead 3 (bs "lo ") None)); Fin 3%nat (ORet (RErr None)); Fin 4%nat (ORet (RBody 3%nat None))].
Proof.
  split; [eapply scheduled; unfold calm; reflexivity|].
  split.
  { intros t. destruct t as [|t]; [apply not_busy; vm_compute; reflexivity|]. unfold calm. rewrite schedule_other; reflexivity. }
  split; [constructor|]. split; [vm_compute; reflexivity|].
  split.
  { exists (Some 0%nat). intros i Hi. rewrite !elem_of_cons, elem_of_nil in Hi. destruct Hi as [->|[->|[->|[]]]]; eexists; (split; [vm_compute; reflexivity|]); cbn; eauto. }
  split; [eapply scheduled; unfold run; reflexivity|].
  assert (Hrun : forall evs, run.1 = evs -> only_calls evs -> only_calls run.1 /\ run.1 = evs) by (intros evs ->; auto).
  apply Hrun; [vm_compute; reflexivity|].
  intros t c Hin. rewrite !elem_of_cons, elem_of_nil in Hin. repeat (destruct Hin as [Hin|Hin]; [simplify_eq; eauto|]). done.
Qed.
