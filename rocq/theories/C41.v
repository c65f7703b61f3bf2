(** * C41: metrics are labelled with the status the client saw *)
From stdpp Require Import gmap.
From Verif Require Import AdaptorSpec WitnessResp.
From Verif Require AdaptorMain AdaptorWitness.

(** False: if the Handler panics before a status is sent, the client sees 500 and
    the label is "0". *)
Theorem C41_refuted :
  exists (V : Type) (U : uenv V) fuel s k u inner isHEAD s1 k' s2 x s' m,
    treaches U fuel s /\ target s k = Some (None, u) /\ request U fuel inner k isHEAD s s1 k' s2 x s' (ORet YUnit) /\
    (forall v, (u_writeheader U v u 500).2 = None) /\ s_met s' = s_met s ++ m /\
    statuses_in (sent_by k' (wlog s')) = [(u, 500)] /\ requests_in m = ["0"].
Proof. exact AdaptorWitness.wrong_label. Qed.
Print Assumptions C41_refuted.

(** All labels are Status() when the deferred function is entered, and the number
    of bytes is BytesWritten() at that time ... *)
Theorem C41_labels : forall (V : Type) (U : uenv V) (fuel : nat), forall s k by_ u inner isHEAD s1 k' s2 x s' o st n,
  treaches U fuel s -> target s k = Some (by_, u) -> request U fuel inner k isHEAD s s1 k' s2 x s' o ->
  (forall v, (u_writeheader U v u 500).2 = None) ->
  reports U fuel s2 k' WStatus (YInt st) -> reports U fuel s2 k' WBytesWritten (YInt n) ->
  exists m, s_met s' = s_met s ++ m /\ requests_in m = [itoa st] /\ Forall (eq (itoa st)) (labels_in m) /\ MSendBytes (itoa st) n ∈ m.
Proof. exact @AdaptorMain.labels. Qed.
Print Assumptions C41_labels.
(** ... so that they are right if a status had been sent by then. *)
Theorem C41_partial : forall (V : Type) (U : uenv V) (fuel : nat), forall s k by_ u inner isHEAD s1 k' s2 x s' o st,
  treaches U fuel s -> target s k = Some (by_, u) -> request U fuel inner k isHEAD s s1 k' s2 x s' o ->
  (forall v, (u_writeheader U v u 500).2 = None) -> reports U fuel s2 k' WStatus (YInt st) -> st <> 0 ->
  exists m, s_met s' = s_met s ++ m /\ statuses_in (sent_by k' (wlog s')) = [(u, st)] /\
    requests_in m = [itoa st] /\ Forall (eq (itoa st)) (labels_in m).
Proof. exact @AdaptorMain.right_labels. Qed.
Print Assumptions C41_partial.

Definition slow_handler : handler :=
  HDo (RB (NewString "hello")) (fun _ => HDo RNewBuilder (fun _ => HDo (RBuilder 0 (WithBody (Some 1%nat))) (fun _ => HDo (RBuild 0) (fun _ => HReturn (Some 0%nat))))).
Example C41_example :
  treaches (web_ok []) 9 (start [] 1) /\ target (start [] 1) 1 = Some (None, 0%nat) /\
  exists s1 k' s2 x s' o, request (web_ok []) 9 slow_handler 1 false (start [] 1) s1 k' s2 x s' o /\
    reports (web_ok []) 9 s2 k' WStatus (YInt 200) /\ reports (web_ok []) 9 s2 k' WBytesWritten (YInt 5) /\
    s_met s' = [MRequests "200"; MLatency "200"; MRecvBytes "200" 0; MSendBytes "200" 5; MLatencyHist; MRecvHist 0; MSendHist 5].
Proof.
  split; [exact (after_reaches (web_ok []) 9 [] 1 [])|]. split; [done|]. eexists _, _, _, _, _, _. split.
  - split; [apply surjective_pairing|]. split; [vm_compute; done|]. split; [vm_compute; reflexivity|].
    do 4 (eapply hd_do; [apply surjective_pairing|vm_compute; done|]). eapply (hd_serve _ _ _ _ _ _ None). vm_compute. reflexivity.
  - split; [vm_compute; reflexivity|]. split; vm_compute; reflexivity.
Qed.
