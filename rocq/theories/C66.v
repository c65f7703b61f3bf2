(** * C66: The Adaptor's books balance *)
From stdpp Require Import gmap.
From Verif Require Import BooksSpec WitnessServe TemplateWitness CloseWitness BooksWitness.
From Verif Require ReplyWitness BooksMain.

(** A program that serves any requests of the clients 1, ..., n by Handlers that do
    anything except write to clients themselves.  Over the whole run, and whatever
    Handlers, Readers and clients do and whichever panics the Adaptor has to recover:
    every request is sent one status, and is counted once under the status that it was
    sent (C41: or as "0" if the Adaptor itself sent the 500); the bytes counted are all bytes that clients accepted; and the panics counted
    are the calls of OnPanic, not more than the requests. *)
Theorem C66_books : forall (V : Type) (U : uenv V) (fuel : nat), reads_only U -> (forall v u, (u_writeheader U v u 500).2 = None) ->
  forall v n maps arrs cs s os,
  Forall (server n) cs -> thistory U fuel (tinitial v n maps arrs) cs = (s, os) -> OSpin ∉ os ->
  (statuses_in (wlog s)).*1 = clients_of cs /\ Forall2 labelled (requests_in (s_met s)) (statuses_in (wlog s)) /\
  (total_accepted (wlog s) <= max_i64 -> zsum (sent_in (s_met s)) = total_accepted (wlog s)) /\
  panics_in (s_met s) = length (onpanics_in (s_met s)) /\ (panics_in (s_met s) <= length (clients_of cs))%nat.
Proof. exact @BooksMain.program_books. Qed.
Print Assumptions C66_books.

(** One request of a plain client, after any program at all.  No number is too large here:
    int64 wraps around. *)
Theorem C66_request : forall (V : Type) (U : uenv V) (fuel : nat), reads_only U -> (forall v u, (u_writeheader U v u 500).2 = None) ->
  forall s k u inner isHEAD s' o,
  treaches U fuel s -> target s k = Some (None, u) -> each off_writers inner -> texec U fuel (TServe inner (Some k) isHEAD) s = (s', o) -> o <> OSpin ->
  exists m l st label, s_met s' = s_met s ++ m /\ wlog s' = wlog s ++ l /\
    statuses_in l = [(u, st)] /\ requests_in m = [label] /\ labelled label (u, st) /\ sent_in m = [wrap64 (total_accepted l)] /\
    panics_in m = length (onpanics_in m) /\ (panics_in m <= 1)%nat.
Proof. exact @BooksMain.any_request_books. Qed.
Print Assumptions C66_request.

(** ** Examples *)
Example C66_example :
  let U := club (lone (hello plain 3)) in
  let s0 := open_saloon 0%nat 3 in
  let s := after U 99 s0 evening in
  reads_only U /\ (forall v u, (u_writeheader U v u 500).2 = None) /\ s0 = tinitial (0%nat, []) 3 [∅; ∅; ∅] [] /\
  Forall (server 3) evening /\ OSpin ∉ (thistory U 99 s0 evening).2 /\
  clients_of evening = [0; 1; 2; 1; 2]%nat /\
  statuses_in (wlog s) = [(0%nat, 200); (1%nat, 200); (2%nat, 500); (1%nat, 404); (2%nat, 200)] /\
  requests_in (s_met s) = ["200"; "200"; "0"; "404"; "200"] /\ sent_in (s_met s) = [0; 5; 0; 0; 5] /\ total_accepted (wlog s) = 10 /\
  onpanics_in (s_met s) = [PError ErrShortWrite; PError (External 1); PError EOF].
Proof.
  cbv zeta. split; [apply club_reads_only|]. split; [done|]. split; [done|]. split; [apply evening_server|]. split; [apply no_spin; by vm_compute|].
  split; [done|]. split; [by vm_compute|]. split; [by vm_compute|]. split; [by vm_compute|]. split; by vm_compute.
Qed.
(** Why [server] asks for clients that are not wrapped yet: NewWriter returns a Writer
    that is one already, with the bytes that it has counted (response/writer.go lines 28-30). *)
Example C66_example_wrapped :
  let U := club (lone (hello plain 3)) in
  let s := after U 99 (open_saloon 0%nat 3) wrapped_before in
  sent_in (s_met s) = [5; 5] /\ total_accepted (wlog s) = 5 /\ requests_in (s_met s) = ["200"; "200"] /\ statuses_in (wlog s) = [(1%nat, 200)].
Proof. cbv zeta. split; [by vm_compute|]. split; [by vm_compute|]. split; by vm_compute. Qed.
(** A request after both of these. *)
Example C66_example_request :
  let U := club (lone (hello plain 3)) in
  let s := after U 99 (open_saloon 0%nat 3) wrapped_before in
  let s' := (texec U 99 (TServe (HReturn (Some 2%nat)) (Some 2%nat) false) s).1 in
  treaches U 99 s /\ target s 2 = Some (None, 1%nat) /\ texec U 99 (TServe (HReturn (Some 2%nat)) (Some 2%nat) false) s = (s', ORet YUnit) /\
  statuses_in (wlog s') = statuses_in (wlog s) ++ [(1%nat, 200)] /\ requests_in (s_met s') = requests_in (s_met s) ++ ["200"] /\
  sent_in (s_met s') = sent_in (s_met s) ++ [5] /\ total_accepted (wlog s') = total_accepted (wlog s) + 5 /\ panics_in (s_met s') = panics_in (s_met s).
Proof.
  cbv zeta. split; [apply (ReplyWitness.saloon_reaches (club (lone (hello plain 3))) 99 0%nat 3 wrapped_before)|].
  split; [by vm_compute|]. split; [vm_compute; reflexivity|]. split; [by vm_compute|]. split; [by vm_compute|]. split; [by vm_compute|]. split; by vm_compute.
Qed.
