(** * C52 — A goroutine with a handle of its own reads as if it were alone *)
From stdpp Require Import gmap.
From Verif Require Import SoloSpec WitnessSource ConcWitness.
From Verif Require Solo.

(** In all theorems: the program [cs] has made the Body [i] and copies of it, [j]
    is one of them.  Then goroutines call methods of the copies [ks] in any
    interleaving ([goroutines]), where [t] is the only one that uses [j].  What [t]
    gets from [j] is what it gets if it makes these calls with no other goroutine
    around, but for the names of new copies and, if there is a Reader, for the
    errors of Close ([alike], as in C08). *)

(** In-memory Bodies, in any environment. *)
Theorem C52_memory :
  forall (W : Type) (E : env W) (fuel : nat) (h : heap W) (c : cmd) (d : bytes),
  c = NewBytes d \/ (exists s, c = NewString s /\ list_ascii_of_string s = d) \/ (c = NewEmpty /\ d = []) ->
  go_cmd c ->
  forall h1 i cs os cf0 ks evs cf t j hB osB,
  exec E fuel h c = (h1, ORet (RBody i None)) -> history E fuel h1 cs = (cf_h cf0, os) -> Forall go_cmd cs -> OSpin ∉ os -> copy_of i cs os j ->
  goroutines E fuel cf0 ks evs cf -> owns t j evs -> Forall (fun f => is_WriteTo f = false) (ops_by t j evs) ->
  history E fuel (cf_h cf0) (map (Call j) (ops_by t j evs)) = (hB, osB) ->
  Forall2 (alike false) (seen_by t j evs) osB.
Proof. exact @Solo.solo_memory. Qed.
Print Assumptions C52_memory.

(** Seekable Readers without faults (as in C02 and C03). *)
Theorem C52_seekable :
  forall (W : Type) (E : env W) (fuel : nat) (r : rid) (live : W -> Prop) (d : bytes),
  serves_at E r live d false /\ cp_readerat (ev_caps E r) = true \/
  serves_seek E r live d false /\ cp_readerat (ev_caps E r) = false /\ cp_seeker (ev_caps E r) = true ->
  forall (w : W) h1 i cs os D cf0 ks evs cf t j hB osB,
  live w -> wrapped_once E fuel r w h1 i cs (cf_h cf0) os -> OSpin ∉ os -> announces E fuel h1 i D -> 0 <= D <= zlen d -> copy_of i cs os j ->
  goroutines E fuel cf0 ks evs cf -> feasible (cf_h cf) -> owns t j evs -> Forall (fun f => is_WriteTo f = false) (ops_by t j evs) ->
  history E fuel (cf_h cf0) (map (Call j) (ops_by t j evs)) = (hB, osB) -> feasible hB ->
  Forall2 (alike true) (seen_by t j evs) osB.
Proof. exact @Solo.solo_seekable. Qed.
Print Assumptions C52_seekable.

(** Streams, in chunks of any size (as in C04); BytesRemaining is excepted as in C08. *)
Theorem C52_stream :
  forall (W : Type) (E : env W) (fuel : nat) (r : rid) (gp : W -> nat) (d : bytes) (e : error),
  streams E r gp d e ->
  forall (w : W) h1 i cs os D cf0 ks evs cf t j hB osB,
  gp w = 0%nat -> wrapped_once E fuel r w h1 i cs (cf_h cf0) os -> OSpin ∉ os -> streaming E fuel r h1 i D -> D <> zlen d \/ e = EOF -> copy_of i cs os j ->
  goroutines E fuel cf0 ks evs cf -> feasible (cf_h cf) -> owns t j evs -> Forall (fun f => is_BytesRemaining f = false) (ops_by t j evs) ->
  history E fuel (cf_h cf0) (map (Call j) (ops_by t j evs)) = (hB, osB) -> OSpin ∉ osB -> feasible hB ->
  Forall2 (alike true) (seen_by t j evs) osB.
Proof. exact @Solo.solo_stream. Qed.
Print Assumptions C52_stream.

(** Goroutine 1 reads and seeks in the Body (handle 1), goroutine 2 reads from the
    copy (handle 2) in the middle of a call of goroutine 1, and closes it while
    goroutine 1 seeks and reads. *)
Definition source := archive (bs "hello world") seekable false None.
Definition calm := schedule source 9 (two_copies (NewReader 0)) (start (false, 0%nat)).
Definition together := [Begin 1%nat (Call 1 (Read (buf 3))); Go 1%nat 2; Begin 2%nat (Call 2 (Read (buf 5))); Go 2%nat 50; Go 1%nat 50;
  Begin 1%nat (Call 1 (Seek (-5) 2)); Go 1%nat 3; Begin 2%nat (Call 2 Close); Go 2%nat 1; Go 1%nat 50; Begin 1%nat (Call 1 (Read (buf 9))); Go 1%nat 3; Go 2%nat 50; Go 1%nat 50; Go 2%nat 50].
Definition run := schedule source 9 together (Conf (cf_h calm.2) (cf_l calm.2) (cf_t calm.2) [0; 1; 2]%nat).
Definition first := fst (exec source 9 (initial (false, 0%nat)) (NewReader 0)).
Example C52_example :
  serves_seek source 0 alive (bs "hello world") false /\ alive (false, 0%nat) /\
  wrapped_once source 9 0 (false, 0%nat) first 1 [Call 1 Copy] (cf_h calm.2) [ORet (RBody 2 None)] /\ announces source 9 first 1 11 /\
  copy_of 1 [Call 1 Copy] [ORet (RBody 2 None)] 1 /\
  goroutines source 9 calm.2 [0; 1; 2]%nat run.1 run.2 /\ feasible (cf_h run.2) /\ owns 1%nat 1 run.1 /\
  ops_by 1%nat 1 run.1 = [Read (buf 3); Seek (-5) 2; Read (buf 9)] /\
  seen_by 1%nat 1 run.1 = [ORet (RRead 3 (bs "hel") None); ORet (RSeek 6 None); ORet (RRead 5 (bs "world" ++ buf 4) (Some EOF))] /\
  feasible (fst (history source 9 (cf_h calm.2) (map (Call 1) [Read (buf 3); Seek (-5) 2; Read (buf 9)]))).
Proof.
  split; [apply archive_serves_seek; done|]. split; [done|]. split.
  { split; [apply archive_go|]. exists [], []. eexists _, (NewReader 0).
    split; [repeat constructor; vm_compute; done|]. split; [repeat constructor; intros [|[? ?]]; congruence|]. split; [by left|].
    split; [vm_compute; reflexivity|]. split; [vm_compute; reflexivity|]. split; [vm_compute; reflexivity|]. split; vm_compute; done. }
  split; [vm_compute; reflexivity|]. split; [vm_compute; eauto|].
  assert (Hev : run.1 = [Inv 1%nat (Call 1 (Read (buf 3))); Inv 2%nat (Call 2 (Read (buf 5))); Fin 2%nat (ORet (RRead 5 (bs "hello") None)); Fin 1%nat (ORet (RRead 3 (bs "hel") None));
    Inv 1%nat (Call 1 (Seek (-5) 2)); Inv 2%nat (Call 2 Close); Fin 1%nat (ORet (RSeek 6 None)); Inv 1%nat (Call 1 (Read (buf 9))); Fin 1%nat (ORet (RRead 5 (bs "world" ++ buf 4) (Some EOF))); Fin 2%nat (ORet (RErr None))])
    by (vm_compute; reflexivity).
  split.
  { split; [eexists _, _; eapply scheduled; unfold calm; reflexivity|].
    split; [intros t; destruct t as [|t]; [apply not_busy; vm_compute; reflexivity|]; unfold calm; rewrite schedule_other; reflexivity|].
    split; [constructor|]. split; [intros i Hi; vm_compute (cf_k _); rewrite !elem_of_cons, elem_of_nil in Hi |- *; tauto|].
    split. { exists (Some 0%nat). intros i Hi. rewrite !elem_of_cons, elem_of_nil in Hi. destruct Hi as [->|[->|[->|[]]]]; eexists; (split; [vm_compute; reflexivity|]); cbn; eauto. }
    split; [eapply scheduled; unfold run; reflexivity|].
    split; [intros t c Hin; rewrite Hev in Hin; clear Hev; rewrite !elem_of_cons, elem_of_nil in Hin; repeat (destruct Hin as [Hin|Hin]; [simplify_eq; eauto|]); done|].
    split; [intros t c Hin; rewrite Hev in Hin; clear Hev; rewrite !elem_of_cons, elem_of_nil in Hin; repeat (destruct Hin as [Hin|Hin]; [simplify_eq; vm_compute; done|]); done|].
    intros t. destruct t as [|[|[|t]]]; [apply not_busy; vm_compute; reflexivity..|]. unfold run. rewrite schedule_other by reflexivity. cbn [cf_t].
    unfold calm. rewrite schedule_other; reflexivity. }
  split; [split; vm_compute; done|].
  split; [intros t c Hin; rewrite Hev in Hin; clear Hev; rewrite !elem_of_cons, elem_of_nil in Hin; repeat (destruct Hin as [Hin|Hin]; [by simplify_eq|]); done|].
  split; [rewrite Hev; vm_compute; reflexivity|]. split; [rewrite Hev; vm_compute; reflexivity|]. split; vm_compute; done.
Qed.
