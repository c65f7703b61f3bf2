(** * C31: SawError reports downstream failures *)
From stdpp Require Import gmap.
From Verif Require Import RespSpec WitnessResp.
From Verif Require WriterMain.

(** Exactly what SawError() reports: a failed Write or a second WriteHeader.  The
    full property also wants failed ReadFrom calls, see below. *)
Theorem C31_saw : forall (V : Type) (U : uenv V) (fuel : nat), forall s k b,
  treaches U fuel s -> reports U fuel s k WSawError (YBool b) ->
  (b = true <-> Exists write_failed (sent_by k (wlog s)) \/ asked_twice k (wlog s)).
Proof. exact @WriterMain.saw_error. Qed.
Print Assumptions C31_saw.

(** ReadFrom fails downstream and SawError() is false. *)
Theorem C31_refuted : exists (V : Type) (U : uenv V) fuel s k u n e,
  treaches U fuel s /\ UReadFromEnd (Some k) u (inl (n, Some e)) ∈ wlog s /\ reports U fuel s k WSawError (YBool false).
Proof. exact @WriterMain.readfrom_error_unseen. Qed.
Print Assumptions C31_refuted.

Definition demo_u : uenv (list nat) := web [] (fun _ => no_caps) (fun p => (1, Some (External 5))) (fun _ => None) reads_once.
Example C31_example :
  let s := after demo_u 9 (start [] 1) [TDo (RNewWriter (Some 1%nat) false); TDo (RWriter 2 (WWrite (bs "abc")))] in
  treaches demo_u 9 s /\ reports demo_u 9 s 2 WSawError (YBool true) /\ Exists write_failed (sent_by 2 (wlog s)).
Proof. split; [apply after_reaches|]. split; [vm_compute; done|]. apply Exists_exists. exists (UWrite (Some 2%nat) 0 (bs "abc") (inl (1, Some (External 5)))). split; [|vm_compute; done].
  vm_compute. set_solver. Qed.
