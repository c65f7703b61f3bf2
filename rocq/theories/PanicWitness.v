(** * Concrete Readers that panic, used by the examples only *)
From stdpp Require Import gmap.
From Coq Require Import ZifyBool.
From Verif Require Export PanicSpec WitnessSource.

(** [E] with a flag that says whether the Reader has panicked yet. *)
Definition flagged {W} (E : env W) : env (W * bool) :=
  let up {A} (b : bool) (x : W * A) : W * bool * A := ((fst x, b), snd x) in
  {| ev_caps := ev_caps E;
     ev_read := fun w r p => up w.2 (ev_read E w.1 r p);
     ev_readat := fun w r p off => up w.2 (ev_readat E w.1 r p off);
     ev_seek := fun w r off wh => up w.2 (ev_seek E w.1 r off wh);
     ev_close := fun w r => up w.2 (ev_close E w.1 r);
     ev_stat := fun w r => up w.2 (ev_stat E w.1 r);
     ev_write := fun w x p => up w.2 (ev_write E w.1 x p) |}.
(** It panics once, in the first call that satisfies [f]. *)
Definition once {W} (f : W -> xcall -> bool) : hazard (W * bool) :=
  fun w c => if negb w.2 && f w.1 c then Some ((w.1, true), PUser 7) else None.

Section Flagged.
Context {W : Type} (E : env W).
Lemma flagged_go : go_env E -> go_env (flagged E).
Proof. intros [H1 H2]. split; intros; cbn; auto. Qed.
Lemma flagged_until r live : until_closed E r live -> until_closed (flagged E) r (fun w => live w.1).
Proof. intros [H1 H2 H3 H4 H5 H6]. constructor; intros; cbn; auto. Qed.
Lemma flagged_serves_at r live d early : serves_at E r live d early -> serves_at (flagged E) r (fun w => live w.1) d early.
Proof.
  intros [H1 H2]. split; [by apply flagged_until|]. intros w p off w' n q err Hl Ho. cbn.
  destruct (ev_readat E w.1 r p off) as [w1 [[n1 q1] e1]] eqn:He. cbn. intros [= <- <- <- <-]. by eapply H2.
Qed.
Lemma flagged_serves_seek r live d early : serves_seek E r live d early -> serves_seek (flagged E) r (fun w => live w.1) d early.
Proof.
  intros [H1 H2]. split; [by apply flagged_until|]. intros w off Hl Ho. destruct (H2 _ _ Hl Ho) as (w1 & n1 & Hs & Hr).
  exists (w1, w.2), n1. split; [cbn; by rewrite Hs|]. intros p w' n q err. cbn.
  destruct (ev_read E w1 r p) as [w2 [[n2 q2] e2]] eqn:He. cbn. intros [= <- <- <- <-]. by eapply Hr.
Qed.
Lemma flagged_streams r gp d e : streams E r gp d e -> streams (flagged E) r (fun w => gp w.1) d e.
Proof.
  intros [H1 H2 H3 H4 H5 H6 H7]. constructor; intros; cbn; auto.
  cbn in H. destruct (ev_read E w.1 r p) as [w1 [[n1 q1] e1]] eqn:He. cbn in H. injection H as <- <- <- <-. cbn. by apply H1.
Qed.
Lemma once_keeps (f : W -> xcall -> bool) live : keeps (once f) (fun w => live w.1).
Proof. intros w c w' e. unfold once. destruct (_ && _); [|done]. by intros [= <- _]. Qed.
Lemma once_holds (f : W -> xcall -> bool) gp : holds_position (once f) (fun w => gp w.1).
Proof. intros w c w' e. unfold once. destruct (_ && _); [|done]. by intros [= <- _]. Qed.
Lemma once_spares (f : W -> xcall -> bool) : (forall w r, f w (XClose r) = false) -> spares_close (once f).
Proof. intros Hf w r. unfold once. by rewrite Hf, andb_false_r. Qed.
End Flagged.

(** A plain Reader that delivers three bytes at a time, and a panic in Close. *)
Definition pipe := flagged (lone {| so_data := bs "hello"; so_caps := plain; so_chunk := 3; so_last := External 7; so_close := None |}).
Definition shutter : hazard (nat * bool) := once (fun (_ : nat) c => match c with XClose _ => true | _ => false end).
Lemma pipe_rules : rule_abiding pipe.
Proof.
  split; [apply flagged_go, lone_go|]. split; [|split; [|split; [|split]]].
  - intros w r p. cbn. destruct (decide _); cbn; unfold zlen; lia.
  - intros. cbn. unfold zlen; lia.
  - intros w r n. done.
  - intros w r off wh n. done.
  - intros w x p. cbn. eexists _, _. split; [done|]. unfold zlen; lia.
Qed.
