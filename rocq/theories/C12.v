(** * C12 — no history panics on a rule-abiding Reader *)
From stdpp Require Import gmap.
From Verif Require Import Spec Witness.
From Verif Require Any Limits.

(** If all Readers and Writers report counts within the buffers they are given
    and no negative sizes, no command of any program panics: no assertion fails,
    no slice index is out of range, no nil is dereferenced and no nil map is
    written.  [known]: the program calls no handle that does not exist. *)
Theorem C12_no_panic :
  forall (W : Type) (E : env W) (fuel : nat) (h : heap W) c h' o e,
  rule_abiding E -> reaches E fuel h -> go_cmd c -> known h c ->
  exec E fuel h c = (h', o) ->
  o <> OPanic e.
Proof. exact @Any.reached_no_panic. Qed.
Print Assumptions C12_no_panic.

(** The rules are necessary: a Reader reporting more bytes than fit is caught by
    an assertion. *)
Theorem C12_rules_needed :
  exists (W : Type) (E : env W) (h : heap W) (c : cmd),
  go_env E /\ reaches E 9 h /\ go_cmd c /\ known h c /\ snd (exec E 9 h c) = OPanic PAssert.
Proof. exact Limits.liar_panics. Qed.
Print Assumptions C12_rules_needed.

(** The readers used by all the examples obey the rules. *)
Example C12_example :
  let E := demo [hello plain 4; hello seekable 4] in
  rule_abiding E /\
  reaches E 9 (fst (history E 9 (initial [0; 0]%nat) [NewReader 0; NewReader 1; Call 1 Copy; Call 2 (Seek 3 0); Call 1 Close; Call 3 (Read (buf 20))])).
Proof.
  cbv zeta. split; [apply Limits.demo_rules|].
  eexists _, _, _. split; [|split; [apply surjective_pairing|split; vm_compute; done]]. repeat constructor; vm_compute; done.
Qed.
