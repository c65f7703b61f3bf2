(** * C51: the fields of a Body are free of data races *)
From Verif Require Import ConcSpec ConcWitness.
From Verif Require ConcMain.

(** No two goroutines are at accesses to the same Body of which one is a store. *)
Theorem C51_body : forall (W : Type) (E : env W) (fuel : nat), forall w evs cf t1 t2 X1 (a1 : act X1) X2 (a2 : act X2) i,
  csteps E fuel (start w) evs cf -> at_act E cf t1 a1 -> at_act E cf t2 a2 ->
  writes_body a1 = Some i -> reads_body a2 = Some i \/ writes_body a2 = Some i -> t1 = t2.
Proof. exact @ConcMain.body_race_free. Qed.
Print Assumptions C51_body.

(** The same for an object shared by copies, but for the BytesRemaining of C45. *)
Theorem C51_shared_partial : forall (W : Type) (E : env W) (fuel : nat), forall w evs cf t1 t2 X1 (a1 : act X1) X2 (a2 : act X2) c,
  csteps E fuel (start w) evs cf -> at_act E cf t1 a1 -> at_act E cf t2 a2 ->
  writes_shared a1 = Some c -> reads_shared a2 = Some c \/ writes_shared a2 = Some c ->
  t1 = t2 \/ exists i b m, cf_t cf t2 = Busy (Call i BytesRemaining) m /\ h_b (cf_h cf) !! i = Some (BSeeker b) /\ sb_common b = Some c.
Proof. exact @ConcMain.shared_race_free. Qed.
Print Assumptions C51_shared_partial.

(** ** Example *)

(** Goroutine 2 has read from the first copy of a buffered Body and is about to store
    its new offset, which updateStart of the second copy would load: goroutine 1
    waits for common.mu. *)
Definition offsets := schedule (demo [hello plain 4]) 9
  (two_copies (NewReader 0%nat) ++ [Begin 1%nat (Call 1%nat (Read (buf 3))); Begin 2%nat (Call 2%nat (Read (buf 3))); Go 2%nat 20; Go 1%nat 11]) (start [0%nat]).
Example C51_example :
  csteps (demo [hello plain 4]) 9 (start [0%nat]) offsets.1 offsets.2 /\
  (exists b, at_act (demo [hello plain 4]) offsets.2 2%nat (StoreB 2%nat b)) /\ next (demo [hello plain 4]) offsets.2 1%nat = "lock shared".
Proof.
  split; [eapply scheduled; unfold offsets; reflexivity|]. split; [|vm_compute; reflexivity]. apply next_store_body. vm_compute. reflexivity.
Qed.
