(** * C43: Bodies cannot deadlock *)
From Verif Require Import ConcSpec ConcWitness.
From Verif Require ConcMain.

(** If a goroutine is in a call, then somebody can go on without a new call being
    made, unless a goroutine is in a loop that its Reader keeps going. *)
Theorem C43_progress : forall (W : Type) (E : env W) (fuel : nat), forall w evs cf,
  csteps E fuel (start w) evs cf -> (exists t, cf_t cf t <> Idle) -> (forall t, ~ spinning E cf t) ->
  exists e cf', cstep E fuel cf e cf' /\ forall t c, e <> Some (Inv t c).
Proof. exact @ConcMain.progress. Qed.
Print Assumptions C43_progress.

(** All calls can be brought to an end, and then no mutex is held. *)
Theorem C43_finish : forall (W : Type) (E : env W) (fuel : nat), forall w evs cf,
  csteps E fuel (start w) evs cf ->
  exists evs' cf', csteps E fuel cf evs' cf' /\ quiet evs' /\
    (((forall t, cf_t cf' t = Idle) /\ forall l, cf_l cf' l = None) \/ exists t, spinning E cf' t).
Proof. exact @ConcMain.can_finish. Qed.
Print Assumptions C43_finish.

(** A goroutine waits for body.mu with no mutex, and for common.mu with at most a
    body.mu. *)
Theorem C43_order : forall (W : Type) (E : env W) (fuel : nat), forall w evs cf t l,
  csteps E fuel (start w) evs cf -> at_act E cf t (Lock l) ->
  match l with MuB _ => forall l', cf_l cf l' <> Some t | MuC _ => forall l', cf_l cf l' = Some t -> exists i, l' = MuB i end.
Proof. exact @ConcMain.lock_order. Qed.
Print Assumptions C43_order.

(** A mutex is only given back by its holder, and before the call ends. *)
Theorem C43_unlock : forall (W : Type) (E : env W) (fuel : nat), forall w evs cf t l,
  csteps E fuel (start w) evs cf -> at_act E cf t (Unlock l) -> cf_l cf l = Some t.
Proof. exact @ConcMain.unlock_held. Qed.
Print Assumptions C43_unlock.
Theorem C43_released : forall (W : Type) (E : env W) (fuel : nat), forall w evs cf t l,
  csteps E fuel (start w) evs cf -> cf_l cf l = Some t -> cf_t cf t <> Idle.
Proof. exact @ConcMain.idle_holds_nothing. Qed.
Print Assumptions C43_released.

(** ** Examples *)

(** Goroutine 2 reads from a copy and holds both mutexes, goroutine 1 waits for
    common.mu, and goroutine 3 waits for goroutine 1. *)
Definition crowd := schedule (demo [hello plain 4]) 9
  (two_copies (NewReader 0%nat) ++ [Begin 1%nat (Call 1%nat (Read (buf 3))); Begin 2%nat (Call 2%nat (Read (buf 3))); Begin 3%nat (Call 1%nat Close);
    Go 2%nat 5; Go 1%nat 5; Go 3%nat 5]) (start [0%nat]).
Example C43_example :
  csteps (demo [hello plain 4]) 9 (start [0%nat]) crowd.1 crowd.2 /\
  map (next (demo [hello plain 4]) crowd.2) [1; 2; 3]%nat = ["lock shared"; "store shared"; "lock body"] /\
  map (cf_l crowd.2) [MuB 1; MuB 2; MuC 0] = [Some 1; Some 2; Some 2]%nat /\
  cf_t crowd.2 1%nat <> Idle.
Proof. split; [eapply scheduled; unfold crowd; reflexivity|]. split; [vm_compute; reflexivity|]. split; [vm_compute; reflexivity|]. apply busy_ok. vm_compute. reflexivity. Qed.

(** All of them end. *)
Example C43_example_finish :
  let r := schedule (demo [hello plain 4]) 9 [Go 2%nat 50; Go 1%nat 50; Go 3%nat 50] crowd.2 in
  map (busy r.2) [0; 1; 2; 3]%nat = [false; false; false; false] /\ map (cf_l r.2) [MuB 1; MuB 2; MuC 0] = [None; None; None] /\
  r.1 = [Fin 2%nat (ORet (RRead 3 (bs "hel") None)); Fin 1%nat (ORet (RRead 3 (bs "hel") None)); Fin 3%nat (ORet (RErr None))].
Proof. vm_compute. auto. Qed.
