(** * Who closes the Reader of a Response: examples *)
From stdpp Require Import gmap.
From Verif Require Import TemplateSpec CloseSpec WitnessServe TemplateWitness.
From Verif Require Deliver.

Lemma holds_lt {V} (U : uenv V) fuel s j rd : holds U fuel s j rd -> (j < length (h_b (s_h s)))%nat.
Proof.
  intros [s' H]. apply Deliver.texec_body in H as (h' & Hex & _). unfold exec, cmd_prog in Hex.
  destruct (h_b (s_h s) !! j) as [b|] eqn:Hb; [by eapply lookup_lt_Some|done].
Qed.
(** A new Builder, here number 0, gets the body; the Response is number 0 too. *)
Definition answering (i : nat) : handler :=
  HDo RNewBuilder (fun _ => HDo (RBuilder 0 (WithBody (Some i))) (fun _ => HDo (RBuild 0) (fun _ => HReturn (Some 0%nat)))).
Lemma answering_go {V} (U : uenv V) i : each (go_rcmd U) (answering i).
Proof. split; [exact I|]. intros _. split; [done|]. intros _. split; [exact I|]. intros _. exact I. Qed.
Lemma answering_spares rd i : each (spares rd) (answering i).
Proof. split; [exact I|]. intros _. split; [exact I|]. intros _. split; [exact I|]. intros _. exact I. Qed.
Definition closes_in (l : list event) : list event := List.filter (fun ev => match ev with EvClose _ _ => true | _ => false end) l.
Lemma step_of {V} (U : uenv V) fuel c cs s s3 os : thistory U fuel s (c :: cs) = (s3, os) -> OSpin ∉ os ->
  exists s1 o os1, texec U fuel c s = (s1, o) /\ o <> OSpin /\ thistory U fuel s1 cs = (s3, os1) /\ OSpin ∉ os1.
Proof.
  cbn [thistory]. destruct (texec U fuel c s) as [s1 o]. destruct (thistory U fuel s1 cs) as [s2 os1] eqn:Hh. intros Heq Hsp.
  destruct o as [y|e|]; injection Heq as <- <-.
  - exists s1, (ORet y), os1. split; [done|]. split; [done|]. split; [done|]. intros Hin. apply Hsp. by right.
  - exists s1, (OPanic e), os1. split; [done|]. split; [done|]. split; [done|]. intros Hin. apply Hsp. by right.
  - exfalso. apply Hsp. by left.
Qed.
Lemma answering_returns {V} (U : uenv V) fuel i s s3 os :
  thistory U fuel s [TDo RNewBuilder; TDo (RBuilder 0 (WithBody (Some i))); TDo (RBuild 0)] = (s3, os) -> OSpin ∉ os -> returns U fuel (answering i) s s3 0.
Proof.
  intros H Hsp. apply step_of in H as (sa & oa & osa & Ha & Hna & H & Hsa); [|exact Hsp].
  apply step_of in H as (sb & ob & osb & Hb & Hnb & H & Hsb); [|exact Hsa].
  apply step_of in H as (sc & oc & osc & Hc & Hnc & H & _); [|exact Hsb]. injection H as -> _.
  econstructor; [exact Ha|exact Hna|]. econstructor; [exact Hb|exact Hnb|]. econstructor; [exact Hc|exact Hnc|]. constructor.
Qed.
Lemma from_copy_go {V} (U : uenv V) r : each (go_rcmd U) (from_copy r).
Proof. split; [exact I|]. by intros [[| | | | | | |[r2|] [e|]]|?|]. Qed.
Lemma from_copy_spares rd r : each (spares rd) (from_copy r).
Proof. split; [exact I|]. by intros [[| | | | | | |[r2|] [e|]]|?|]. Qed.
Definition two_copies : list tcmd := respond 1 ++ [TServe (from_copy 0) (Some 1%nat) false; TServe (from_copy 0) (Some 2%nat) false].
Lemma two_copies_go {V} (U : uenv V) : Forall (each_in (go_rcmd U)) two_copies.
Proof. apply Forall_app. split; [apply respond_go|]. repeat (apply Forall_cons; split; [apply from_copy_go|]). by apply Forall_nil. Qed.
Lemma two_copies_spares rd : Forall (each_in (spares rd)) two_copies.
Proof. apply Forall_app. split; [apply respond_spares|]. repeat (apply Forall_cons; split; [apply from_copy_spares|]). by apply Forall_nil. Qed.
Lemma stream_wrapped cs : let U := club (lone (hello plain 3)) in let s1 := after U 99 (open_saloon 0%nat 3) [TDo (RB (NewReader 0))] in
  Forall (each_in (go_rcmd U)) cs -> Forall (each_in (spares 0)) cs -> feasible (s_h (after U 99 s1 cs)) ->
  wrapped_in U 99 0 (0%nat, []) s1 1 cs (after U 99 s1 cs) (thistory U 99 s1 cs).2.
Proof.
  cbv zeta. intros Hg Hs Hf. split; [apply club_go, lone_go|]. exists 3%nat, [∅; ∅; ∅], [], [], [], (open_saloon 0%nat 3), (NewReader 0).
  split; [exact Hg|]. split; [exact Hs|]. split; [done|]. split; [by left|].
  split; [done|]. split; [vm_compute; reflexivity|]. split; [apply surjective_pairing|]. exact Hf.
Qed.
Lemma released_last {V} (U : uenv V) rd s err : let l := calls_on rd (h_log (s_h s)) in
  is_closer (ev_caps (u_env U) rd) = true -> l = removelast l ++ [EvClose rd err] -> closes_in (removelast l) = [] -> released U rd s.
Proof.
  cbv zeta. intros Hc Hl Hn. unfold released. rewrite Hc. eexists _, err. split; [exact Hl|].
  revert Hn. generalize (removelast (calls_on rd (h_log (s_h s)))). intros l. induction l as [|ev l IH]; [by constructor|].
  destruct ev; cbn; intros Hn; try discriminate; (constructor; [exact I || done|by apply IH]).
Qed.
