(** * C45: shared state is only accessed under its lock *)
From Verif Require Import ConcSpec ConcWitness.
From Verif Require ConcMain.

(** This is false (seeker.go:76-85): [t1] is about to load the shared length without
    common.mu, while [t2] has common.mu and is about to store another length. *)
Definition racing := schedule (demo [hello seekable 100]) 9
  (two_copies (NewReaderLen 0%nat 100) ++ [Begin 2%nat (Call 2%nat (Read (buf 20))); Go 2%nat 20;
    Begin 1%nat (Call 1%nat BytesRemaining); Go 1%nat 2; Begin 2%nat (Call 2%nat (Read (buf 20))); Go 2%nat 7]) (start [0%nat]).
Theorem C45_refuted : exists (W : Type) (E : env W) (fuel : nat) (w : W) evs cf t1 t2 c x y,
  csteps E fuel (start w) evs cf /\ t1 <> t2 /\ at_act E cf t1 (LoadC c) /\ at_act E cf t2 (StoreC c (CSeeker y)) /\
  cf_l cf (MuC c) = Some t2 /\ h_c (cf_h cf) !! c = Some (CSeeker x) /\ sc_length x <> sc_length y.
Proof.
  destruct (next_stored (demo [hello seekable 100]) racing.2 2%nat 0%nat 11) as (y & Hy & Hn); [vm_compute; reflexivity|].
  destruct (h_c (cf_h racing.2) !! 0%nat) as [[x|x|x]|] eqn:Hx; try (exfalso; revert Hx; vm_compute; discriminate).
  exists _, (demo [hello seekable 100]), 9%nat, [0%nat], racing.1, racing.2, 1%nat, 2%nat, 0%nat, x, y.
  split; [eapply scheduled; unfold racing; reflexivity|]. split; [done|]. split; [apply next_load; vm_compute; reflexivity|].
  split; [done|]. split; [vm_compute; reflexivity|]. split; [done|]. rewrite Hn. revert Hx. vm_compute. by intros [= <-].
Qed.
Print Assumptions C45_refuted.

(** It is the only exception: every other access is made with common.mu, and a
    goroutine in this load has body.mu. *)
Theorem C45_partial : forall (W : Type) (E : env W) (fuel : nat), forall w evs cf t X (a : act X) c,
  csteps E fuel (start w) evs cf -> at_act E cf t a -> reads_shared a = Some c \/ writes_shared a = Some c ->
  cf_l cf (MuC c) = Some t \/
  (reads_shared a = Some c /\ exists i b m, cf_t cf t = Busy (Call i BytesRemaining) m /\
     h_b (cf_h cf) !! i = Some (BSeeker b) /\ sb_common b = Some c /\ cf_l cf (MuB i) = Some t).
Proof. exact @ConcMain.shared_access. Qed.
Print Assumptions C45_partial.
