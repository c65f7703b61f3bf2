(** * Calls of package body with Readers that may panic (proofs) *)
From stdpp Require Import gmap.
From Verif Require Import RespModel.

Section Run.
Context {W : Type} (E : env W) (P : hazard W).
Lemma xrun_calm {A} (m : prog A) : forall h h' o, xrun E P h m = (h', o) -> (forall e, o <> OPanic e) -> run E h m = (h', o).
Proof.
  induction m as [a|e| |X a k IH]; intros h h' o H Ho; cbn in *; try done.
  destruct (hits P h a) as [[w e]|]; [injection H as <- <-; by destruct (Ho e)|]. destruct (act_step E h a) as [[h1 x]|]; [by apply IH|done].
Qed.
Lemma xrun_none {A} (m : prog A) : (forall w c, P w c = None) -> forall h, xrun E P h m = run E h m.
Proof.
  intros HP. induction m as [a|e| |X a k IH]; intros h; cbn; try done.
  assert (Hh : hits P h a = None) by (unfold hits; by destruct (call_of a)). rewrite Hh. by destruct (act_step E h a) as [[h1 x]|].
Qed.

(** A run that has called no Reader. *)
Lemma run_log_ext {A} (m : prog A) : forall h h' o, run E h m = (h', o) -> exists evs, h_log h' = h_log h ++ evs.
Proof.
  induction m as [a|e| |X a k IH]; intros h h' o; cbn; try (intros [= <- <-]; exists []; by rewrite app_nil_r).
  destruct (act_step E h a) as [[h1 x]|] eqn:Ha; [|intros [= <- <-]; exists []; by rewrite app_nil_r]. intros H.
  destruct (IH _ _ _ _ H) as [evs ->].
  assert (H1 : exists evs1, h_log h1 = h_log h ++ evs1).
  { destruct a; cbn in Ha; repeat case_match; simplify_eq/=; solve [exists []; by rewrite app_nil_r|by eexists]. }
  destruct H1 as [evs1 ->]. exists (evs1 ++ evs). by rewrite app_assoc.
Qed.
Lemma xrun_unlogged {A} (m : prog A) : forall h h' o, run E h m = (h', o) -> h_log h' = h_log h -> xrun E P h m = (h', o).
Proof.
  induction m as [a|e| |X a k IH]; intros h h' o; cbn; try done.
  destruct (act_step E h a) as [[h1 x]|] eqn:Ha; [|intros [= <- <-] _; unfold hits; destruct a; cbn in *; repeat case_match; done]. intros H Hl.
  destruct (run_log_ext _ _ _ _ H) as [evs He].
  assert (H1 : exists evs1, h_log h1 = h_log h ++ evs1 /\ (evs1 = [] -> hits P h a = None)).
  { destruct a; cbn in Ha; repeat case_match; simplify_eq/=; solve [exists []; by rewrite app_nil_r|eexists; split; [reflexivity|done]]. }
  destruct H1 as (evs1 & H1 & Hn). rewrite Hl, H1, <- app_assoc in He.
  rewrite <- (app_nil_r (h_log h)) in He at 1. apply app_inv_head in He. symmetry in He. apply app_eq_nil in He as [-> ->].
  rewrite Hn by done. apply IH; [done|]. by rewrite Hl, H1, app_nil_r.
Qed.
End Run.

Section World.
Context {V : Type} (U : uenv V) (fuel : nat).
(** No Reader panics. *)
Definition no_hazard : Prop := forall v c, u_hazard U v c = None.
Lemma uexec_safe h c : no_hazard -> uexec U fuel h c = exec (wenv U) fuel h c.
Proof. intros H. unfold uexec, xexec, exec. apply xrun_none. intros w c'. unfold whazard. by rewrite H. Qed.
Lemma body_call_some i f s : body_call U fuel (Some i) f s = let '(h, o) := uexec U fuel (s_h s) (Call i f) in (put_h s h, o).
Proof. done. Qed.
Lemma uexec_ret h c h' x : uexec U fuel h c = (h', ORet x) -> exec (wenv U) fuel h c = (h', ORet x).
Proof. unfold uexec, xexec, exec. intros H. by eapply xrun_calm. Qed.
Lemma uexec_unlogged h c h' o : exec (wenv U) fuel h c = (h', o) -> h_log h' = h_log h -> uexec U fuel h c = (h', o).
Proof. unfold uexec, xexec, exec. apply xrun_unlogged. Qed.
Lemma xrun_world (R : wst V -> wst V -> Prop) : Reflexive R -> Transitive R ->
  (forall h A (a : act A) h' x, act_step (wenv U) h a = Some (h', x) -> R (h_w h) (h_w h')) -> (forall w v, R w (put_v w v)) ->
  forall A (m : prog A) h, R (h_w h) (h_w (xrun (wenv U) (whazard U) h m).1).
Proof.
  intros Hr Ht Hstep Hput A m. induction m as [a|e| |X a k IH]; intros h; cbn; try done.
  destruct (hits (whazard U) h a) as [[w e]|] eqn:Hh.
  - unfold hits, whazard in Hh. destruct (call_of a); [|done]. destruct (u_hazard _ _ _) as [[v e']|]; [|done]. injection Hh as <- <-. cbn. apply Hput.
  - destruct (act_step _ h a) as [[h1 x]|] eqn:Ha; [|done]. etrans; [by eapply Hstep|apply IH].
Qed.
End World.
