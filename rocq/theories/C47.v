(** * C47 — Read terminates on a progressing Reader *)
From stdpp Require Import gmap.
From Verif Require Import Spec Witness.
From Verif Require Fuel Limits.

(** [fuel] bounds the number of Reader calls one Body call may make.  With a
    Reader that makes progress, len(p) + 65536 calls always suffice: nothing a
    program does fails to return. *)
Theorem C47_returns :
  forall (W : Type) (E : env W) (fuel : nat) (h : heap W) c,
  go_env E -> progressing E -> reaches E fuel h -> go_cmd c ->
  (forall i p, c = Call i (Read p) -> (Z.to_nat (zlen p + 65536) <= fuel)%nat) ->
  snd (exec E fuel h c) <> OSpin.
Proof. exact @Fuel.reached_returns. Qed.
Print Assumptions C47_returns.

(** The bound is only a bound: a call that returns does the same with any
    greater one. *)
Theorem C47_fuel_irrelevant :
  forall (W : Type) (E : env W) (fuel fuel' : nat) (h : heap W) c h' o,
  (fuel <= fuel')%nat -> exec E fuel h c = (h', o) -> o <> OSpin -> exec E fuel' h c = (h', o).
Proof. exact @Fuel.fuel_irrelevant. Qed.
Print Assumptions C47_fuel_irrelevant.

(** A Reader that always answers (0, nil): Read never returns, however many
    calls it makes. *)
Theorem C47_silent_spins :
  forall (W : Type) (E : env W) (fuel fuel' : nat) (h : heap W) r h1 i p,
  go_env E -> silent E -> cp_file (ev_caps E r) = false -> cp_seeker (ev_caps E r) = false ->
  reaches E fuel h -> exec E fuel h (NewReader r) = (h1, ORet (RBody i None)) -> feasible h1 ->
  p <> [] -> zlen p <= max_slice ->
  snd (exec E fuel' h1 (Call i (Read p))) = OSpin.
Proof. exact @Fuel.read_spins. Qed.
Print Assumptions C47_silent_spins.

(** One byte at a time: five bytes take five calls. *)
Example C47_example :
  let s d := {| so_data := d; so_caps := plain; so_chunk := 1; so_last := EOF; so_close := None |} in
  let E := demo [s (bs "hello")] in
  let h := fst (history E 9 (initial [0%nat]) [NewReader 0]) in
  go_env E /\ progressing E /\ reaches E 9 h /\ go_cmd (Call 1 (Read (buf 3))) /\
  snd (exec E 5 h (Call 1 (Read (buf 3)))) = OSpin /\
  snd (exec E 6 h (Call 1 (Read (buf 3)))) = ORet (RRead 3 (bs "hel") None).
Proof.
  cbv zeta. split; [apply demo_go|]. split; [apply Limits.demo_progress; repeat constructor; done|]. split.
  { eexists _, _, _. split; [|split; [apply surjective_pairing|split; vm_compute; done]]. repeat constructor; vm_compute; done. }
  split; [vm_compute; done|]. split; vm_compute; reflexivity.
Qed.

Example C47_example_silent :
  let E := {| ev_caps := fun _ => plain; ev_read := fun (w : unit) r p => (w, (0, p, None));
              ev_readat := fun w r p off => (w, (0, p, None)); ev_seek := fun w r off wh => (w, (0, None));
              ev_close := fun w r => (w, None); ev_stat := fun w r => (w, (0, None)); ev_write := fun w x p => (w, inl (0, None)) |} in
  go_env E /\ silent E /\ snd (exec E 3 (initial tt) (NewReader 0)) = ORet (RBody 1 None).
Proof. cbv zeta. split; [split; intros; cbn; vm_compute; done|]. split; [split; done|reflexivity]. Qed.
