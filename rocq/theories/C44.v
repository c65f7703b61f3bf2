(** * C44: the Reader is never used concurrently *)
From Verif Require Import ConcSpec ConcWitness.
From Verif Require ConcMain.

(** If every Reader is given to at most one constructor call, at most one goroutine
    at a time is calling into it. *)
Theorem C44_exclusive : forall (W : Type) (E : env W) (fuel : nat), forall w evs cf t1 t2 r,
  csteps E fuel (start w) evs cf -> NoDup (made evs) -> calling E cf t1 r -> calling E cf t2 r -> t1 = t2.
Proof. exact @ConcMain.reader_exclusive. Qed.
Print Assumptions C44_exclusive.

(** ** Examples *)

(** Two copies are read; one goroutine is calling into the Reader, the other one waits. *)
Definition readers := schedule (demo [hello seekable 4]) 9
  (two_copies (NewReaderLen 0%nat 11) ++ [Begin 1%nat (Call 1%nat (Read (buf 3))); Begin 2%nat (Call 2%nat (Read (buf 3))); Go 2%nat 4; Go 1%nat 9]) (start [0%nat]).
Example C44_example :
  csteps (demo [hello seekable 4]) 9 (start [0%nat]) readers.1 readers.2 /\ NoDup (made readers.1) /\
  calling (demo [hello seekable 4]) readers.2 2%nat 0%nat /\ next (demo [hello seekable 4]) readers.2 1%nat = "lock shared".
Proof.
  split; [eapply scheduled; unfold readers; reflexivity|]. split; [vm_compute; repeat constructor; rewrite elem_of_nil; auto|]. split; [|vm_compute; reflexivity].
  apply (next_of_ok _ (@reader_called)). vm_compute. reflexivity.
Qed.

(** Without the hypothesis: one Reader given to two constructors. *)
Definition misuse := schedule (demo [hello plain 4]) 9
  [Begin 0%nat (NewReader 0%nat); Go 0%nat 50; Begin 0%nat (NewReader 0%nat); Go 0%nat 50;
   Begin 1%nat (Call 1%nat (Read (buf 3))); Begin 2%nat (Call 2%nat (Read (buf 3))); Go 2%nat 7; Go 1%nat 7] (start [0%nat]).
Example C44_misuse : csteps (demo [hello plain 4]) 9 (start [0%nat]) misuse.1 misuse.2 /\
  map (next (demo [hello plain 4]) misuse.2) [1; 2]%nat = ["read"; "read"].
Proof. split; [eapply scheduled; unfold misuse; reflexivity|vm_compute; reflexivity]. Qed.
