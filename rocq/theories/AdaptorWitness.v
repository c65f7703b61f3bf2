(** * A request with a wrong label *)
From stdpp Require Import gmap.
From Verif Require Import AdaptorSpec WitnessResp.

Theorem wrong_label :
  exists (V : Type) (U : uenv V) fuel s k u inner isHEAD s1 k' s2 x s' m,
    treaches U fuel s /\ target s k = Some (None, u) /\ request U fuel inner k isHEAD s s1 k' s2 x s' (ORet YUnit) /\
    (forall v, (u_writeheader U v u 500).2 = None) /\ s_met s' = s_met s ++ m /\
    statuses_in (sent_by k' (wlog s')) = [(u, 500)] /\ requests_in m = ["0"].
Proof.
  exists (list nat), (web_ok []), 9%nat, (start [] 1), 1%nat, 0%nat, (HPanic (Some (PUser 0))), false. eexists _, _, _, _, _, _.
  split; [exact (after_reaches (web_ok []) 9 [] 1 [])|]. split; [done|]. split.
  { split; [vm_compute; reflexivity|]. split; [done|]. split; [vm_compute; reflexivity|]. apply hd_panic. }
  split; [done|]. split; [vm_compute; reflexivity|]. split; vm_compute; reflexivity.
Qed.
