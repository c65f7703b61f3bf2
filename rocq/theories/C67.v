(** * C67: A request is one conversation with its own client *)
From stdpp Require Import gmap.
From Verif Require Import TalkSpec WitnessServe TemplateWitness CloseWitness BooksWitness.
From Verif Require ReplyWitness TalkMain.

(** The programs of C66.  The calls that all clients get are one conversation for each
    request, in the order of the requests: pushes, one status between 100 and 999, and no
    further status; no data if the request is HEAD or the status is 204; and no call at
    all to another client, whatever Handlers, Readers and clients do. *)
Theorem C67_conversations : forall (V : Type) (U : uenv V) (fuel : nat), reads_only U -> forall v n maps arrs cs s os,
  Forall (server n) cs -> thistory U fuel (tinitial v n maps arrs) cs = (s, os) -> OSpin ∉ os ->
  exists ls, wlog s = concat ls /\ Forall2 conversation (requests_of cs) ls.
Proof. exact @TalkMain.program_talk. Qed.
Print Assumptions C67_conversations.

(** One request of a plain client, after any program at all. *)
Theorem C67_request : forall (V : Type) (U : uenv V) (fuel : nat), reads_only U -> forall s k u inner isHEAD s' o,
  treaches U fuel s -> target s k = Some (None, u) -> each off_writers inner -> texec U fuel (TServe inner (Some k) isHEAD) s = (s', o) -> o <> OSpin ->
  exists l, wlog s' = wlog s ++ l /\ conversation (u, isHEAD) l.
Proof. exact @TalkMain.any_request_talk. Qed.
Print Assumptions C67_request.

(** ** Examples *)
Example C67_example :
  let U := club (lone (hello plain 3)) in
  let s0 := open_saloon 0%nat 3 in
  let s := after U 99 s0 evening in
  reads_only U /\ s0 = tinitial (0%nat, []) 3 [∅; ∅; ∅] [] /\ Forall (server 3) evening /\ OSpin ∉ (thistory U 99 s0 evening).2 /\
  requests_of evening = [(0%nat, false); (1%nat, false); (2%nat, false); (1%nat, true); (2%nat, false)] /\
  calls (wlog s) =
    [UHeader (Some 4%nat) 0 200 None; UWrite (Some 4%nat) 0 (bs "hello") (inl (0, Some ErrShortWrite));
     UHeader (Some 5%nat) 1 200 None; UWrite (Some 5%nat) 1 (bs "hello") (inl (5, None));
     UHeader (Some 6%nat) 2 500 None;
     UHeader (Some 7%nat) 1 404 None;
     UHeader (Some 8%nat) 2 200 None; UWrite (Some 8%nat) 2 (bs "hello") (inl (5, None))].
Proof.
  cbv zeta. split; [apply club_reads_only|]. split; [done|]. split; [apply evening_server|]. split; [apply no_spin; by vm_compute|].
  split; [done|]. by vm_compute.
Qed.
(** After a program that uses a Writer by itself; the request is HEAD. *)
Example C67_example_request :
  let U := club (lone (hello plain 3)) in
  let s := after U 99 (open_saloon 0%nat 3) wrapped_before in
  let s' := (texec U 99 (TServe (HReturn (Some 2%nat)) (Some 2%nat) true) s).1 in
  treaches U 99 s /\ target s 2 = Some (None, 1%nat) /\ (texec U 99 (TServe (HReturn (Some 2%nat)) (Some 2%nat) true) s).2 = ORet YUnit /\
  calls (wlog s') = calls (wlog s) ++ [UHeader (Some 5%nat) 1 200 None] /\ conversation (1%nat, true) [UHeader (Some 5%nat) 1 200 None].
Proof.
  cbv zeta. split; [apply (ReplyWitness.saloon_reaches (club (lone (hello plain 3))) 99 0%nat 3 wrapped_before)|].
  split; [by vm_compute|]. split; [by vm_compute|]. split; [by vm_compute|]. split; [by repeat constructor|].
  exists [], (Some 5%nat), 200, None, []. split; [done|]. split; [constructor|]. split; [done|]. split; [constructor|]. intros _. constructor.
Qed.
